(** Lemmas about the averages: the year loop. *)
From Coq Require Import ZArith Lia.
From Verif Require Import Base Num M_TimeFrame M_Epw M_Solar S_Calendar S_Solar L_Calendar L_HourlyShape L_Properties L_Epw L_Solar.
Open Scope nat_scope.
Open Scope list_scope.

(** First hour and number of hours of month [k] (0 = January). *)
Definition first_hour (k : nat) : nat := Z.to_nat (24 * days_before (Z.of_nat k + 1)).
Definition month_hours (k : nat) : nat := Z.to_nat (24 * days_of (Z.of_nat k + 1)).
Definition hours_of (k : nat) : list nat := seq (first_hour k) (month_hours k).

Lemma first_hour_S : forall k, k < 12 -> first_hour (S k) = first_hour k + month_hours k.
Proof.
  intros k H. unfold first_hour, month_hours, days_of. pose proof (days_before_bounds (Z.of_nat k + 1) ltac:(lia)) as B.
  replace (Z.of_nat (S k) + 1)%Z with (Z.of_nat k + 1 + 1)%Z by lia. lia.
Qed.
Lemma year_seq : seq 0 slices = concat (map hours_of (seq 0 12)).
Proof.
  assert (G : forall n, n <= 12 -> seq 0 (first_hour n) = concat (map hours_of (seq 0 n))).
  { induction n as [|n IH]; intros H; [reflexivity|]. rewrite first_hour_S by lia. rewrite seq_app, (seq_S n), map_app, concat_app.
    rewrite IH by lia. cbn [map concat app plus]. rewrite app_nil_r. reflexivity. }
  rewrite <- G by lia. f_equal.
Qed.
Lemma month_length_days : forall k, k < 12 -> monthLength (Z.of_nat k + 1) = days_of (Z.of_nat k + 1).
Proof. intros k H. do 12 (destruct k as [|k]; [reflexivity|]). lia. Qed.

Lemma calendar_month : forall i m k dom, calendar_day (Z.of_nat i / 24) m dom -> k < 12 ->
  first_hour k <= i < first_hour k + month_hours k -> m = (Z.of_nat k + 1)%Z.
Proof.
  intros i m k dom (H1&H2&_) HK HI.
  assert (D : (days_before (Z.of_nat k + 1) <= Z.of_nat i / 24 < days_before (Z.of_nat k + 1 + 1))%Z).
  { unfold first_hour, month_hours, days_of in HI. pose proof (days_before_bounds (Z.of_nat k + 1) ltac:(lia)) as B. split.
    - apply Z.div_le_lower_bound; lia.
    - apply Z.div_lt_upper_bound; lia. }
  assert (M : forall a b, (1 <= a)%Z -> (a <= b)%Z -> (b <= 12)%Z -> (days_before a <= days_before b)%Z).
  { intros a b A1 A2 A3. replace b with (a + Z.of_nat (Z.to_nat (b - a)))%Z by lia.
    assert (X : (a + Z.of_nat (Z.to_nat (b - a)) <= 12)%Z) by lia. revert X. generalize (Z.to_nat (b - a)).
    induction n as [|n IH]; intros X; [replace (a + Z.of_nat 0)%Z with a by lia; lia|].
    specialize (IH ltac:(lia)). pose proof (days_before_bounds (a + Z.of_nat n) ltac:(lia)) as B.
    replace (a + Z.of_nat (S n))%Z with (a + Z.of_nat n + 1)%Z by lia. lia. }
  destruct (Z.lt_trichotomy m (Z.of_nat k + 1)) as [L|[E|G]]; [|exact E|].
  - pose proof (M (m + 1)%Z (Z.of_nat k + 1)%Z ltac:(lia) ltac:(lia) ltac:(lia)). lia.
  - pose proof (M (Z.of_nat k + 1 + 1)%Z m ltac:(lia) ltac:(lia) ltac:(lia)). lia.
Qed.

(** A calendar as every theorem about the year assumes it. *)
Definition good_frame (frame : list (option tcell)) : Prop :=
  forall k i, k < 12 -> first_hour k <= i < first_hour k + month_hours k ->
  exists c, frameCell frame i = Ok c /\ tc_month c = (Z.of_nat k + 1)%Z /\ tc_hour c = Z.of_nat (i mod 24) /\ tc_ytd c = Z.of_nat (i / 24).
Lemma year_bound : forall k i, k < 12 -> first_hour k <= i < first_hour k + month_hours k -> i < slices.
Proof.
  intros k i HK HI. rewrite <- first_hour_S in HI by exact HK. unfold first_hour in HI. pose proof slices_Z.
  pose proof (days_before_bounds (Z.of_nat k + 1) ltac:(lia)) as B. replace (Z.of_nat (S k) + 1)%Z with (Z.of_nat k + 1 + 1)%Z in HI by lia. lia.
Qed.
Lemma timeFrame_good : forall frame, timeFrame = Ok frame -> good_frame frame.
Proof.
  intros frame E k i HK HI. destruct timeFrame_spec as (a&E'&_&H). rewrite E in E'. assert (a = frame) as -> by congruence.
  pose proof (year_bound k i HK HI) as B. pose proof slices_Z.
  destruct (H (Z.of_nat i) ltac:(lia)) as (c&C1&C2&C3&C4&C5). rewrite Nat2Z.id in C1. exists c.
  split; [unfold frameCell, vget; rewrite C1; reflexivity|]. split; [eapply calendar_month; eassumption|].
  split; [rewrite C2|rewrite C3]; [rewrite Nat2Z.inj_mod|rewrite Nat2Z.inj_div]; reflexivity.
Qed.

Lemma filter_interval_seq : forall lo n m (P : nat -> bool), (forall i, P i = ((lo <=? i) && (i <? lo + n))%nat) -> lo + n <= m ->
  filter P (seq 0 m) = seq lo n.
Proof.
  intros lo n m P HP H. replace m with (lo + (n + (m - lo - n))) by lia. rewrite !seq_app, !filter_app.
  replace (filter P (seq 0 lo)) with (@nil nat); [replace (filter P (seq (0 + lo + n) (m - lo - n))) with (@nil nat);
    [replace (filter P (seq (0 + lo) n)) with (seq (0 + lo) n); [rewrite app_nil_r; reflexivity|]|]|].
  - assert (X : forall k a, (forall i, a <= i < a + k -> P i = true) -> filter P (seq a k) = seq a k).
    { induction k as [|k IH]; intros a Q; [reflexivity|]. cbn. rewrite (Q a) by lia. f_equal. apply IH. intros i HI. apply Q. lia. }
    symmetry. apply X. intros i HI. rewrite HP. rewrite (proj2 (Nat.leb_le _ _)), (proj2 (Nat.ltb_lt _ _)) by lia. reflexivity.
  - assert (X : forall k a, (forall i, a <= i < a + k -> P i = false) -> filter P (seq a k) = []).
    { induction k as [|k IH]; intros a Q; [reflexivity|]. cbn. rewrite (Q a) by lia. apply IH. intros i HI. apply Q. lia. }
    symmetry. apply X. intros i HI. rewrite HP. rewrite (proj2 (Nat.ltb_ge i _)) by lia. apply andb_false_r.
  - assert (X : forall k a, (forall i, a <= i < a + k -> P i = false) -> filter P (seq a k) = []).
    { induction k as [|k IH]; intros a Q; [reflexivity|]. cbn. rewrite (Q a) by lia. apply IH. intros i HI. apply Q. lia. }
    symmetry. apply X. intros i HI. rewrite HP. rewrite (proj2 (Nat.leb_gt _ _)) by lia. reflexivity.
Qed.
Lemma combine_seq : forall A (l : list A) d, combine (seq 0 (length l)) l = map (fun i => (i, nth i l d)) (seq 0 (length l)).
Proof.
  intros A l d. assert (G : forall k (l : list A), combine (seq k (length l)) l = map (fun i => (i, nth (i - k) l d)) (seq k (length l))).
  { intros k l0. revert k. induction l0 as [|x l0 IH]; intros k; [reflexivity|]. cbn [length seq combine map]. rewrite Nat.sub_diag. cbn [nth]. f_equal.
    rewrite IH. apply map_ext_in. intros i HI. apply in_seq in HI. f_equal. replace (i - k) with (S (i - S k)) by lia. reflexivity. }
  rewrite G. apply map_ext. intros i. rewrite Nat.sub_0_r. reflexivity.
Qed.
Lemma filter_map : forall A B (f : A -> B) P l, filter P (map f l) = map f (filter (fun a => P (f a)) l).
Proof. intros A B f P. induction l as [|a l IH]; cbn; [reflexivity|]. destruct (P (f a)); cbn; rewrite IH; reflexivity. Qed.
Lemma filter_andb : forall A (P Q : A -> bool) l, filter (fun a => P a && Q a) l = filter Q (filter P l).
Proof. intros A P Q. induction l as [|a l IH]; cbn; [reflexivity|]. destruct (P a); cbn; [destruct (Q a)|]; rewrite IH; reflexivity. Qed.
Lemma month_filter : forall k n, k < 12 -> slices <= n -> filter (fun i => hour_in_month (Z.of_nat k + 1) (Z.of_nat i)) (seq 0 n) = hours_of k.
Proof.
  intros k n HK HN. apply filter_interval_seq.
  - intros i. unfold hour_in_month, first_hour, month_hours, days_of. pose proof (days_before_bounds (Z.of_nat k + 1) ltac:(lia)) as B.
    f_equal; apply eq_true_iff_eq; rewrite ?Z.leb_le, ?Z.ltb_lt, ?Nat.leb_le, ?Nat.ltb_lt; lia.
  - rewrite <- first_hour_S by exact HK. unfold first_hour. pose proof slices_Z.
    pose proof (days_before_bounds (Z.of_nat k + 1) ltac:(lia)) as B. replace (Z.of_nat (S k) + 1)%Z with (Z.of_nat k + 1 + 1)%Z by lia. lia.
Qed.
Lemma month_part_seq : forall A (l : list A) k d, k < 12 -> length l = slices -> month_part (Z.of_nat k + 1) l = map (fun i => nth i l d) (hours_of k).
Proof.
  intros A l k d HK HL. unfold month_part. rewrite (combine_seq A l d), filter_map, map_map. cbn [fst snd].
  rewrite month_filter by (try exact HK; lia). reflexivity.
Qed.
Lemma hour_part_seq : forall A (l : list A) k h d, k < 12 -> length l = slices ->
  hour_part (Z.of_nat k + 1) (Z.of_nat h) l = map (fun i => nth i l d) (filter (fun i => (i mod 24 =? h)%nat) (hours_of k)).
Proof.
  intros A l k h d HK HL. unfold hour_part. rewrite (combine_seq A l d), filter_map, map_map. cbn [fst snd].
  rewrite filter_andb, month_filter by (try exact HK; lia). f_equal. apply filter_ext. intros i.
  apply eq_true_iff_eq. rewrite Z.eqb_eq, Nat.eqb_eq. change 24%Z with (Z.of_nat 24). rewrite <- Nat2Z.inj_mod. lia.
Qed.

Lemma upd_all : forall A (f : nat -> A) (v : list A) n, length v = n -> fold_left (fun v k => upd v k (f k)) (seq 0 n) v = map f (seq 0 n).
Proof.
  intros A f v n HL.
  assert (G : forall k done rest, (k + length rest = n)%nat -> length done = k ->
    fold_left (fun v k => upd v k (f k)) (seq k (length rest)) (done ++ rest) = done ++ map f (seq k (length rest))).
  { intros k done rest. revert k done. induction rest as [|x rest IH]; intros k done H1 H2; [reflexivity|].
    cbn [length seq fold_left map]. replace (upd (done ++ x :: rest) k (f k)) with ((done ++ [f k]) ++ rest).
    - rewrite IH; [rewrite <- app_assoc; reflexivity|cbn in H1; lia|rewrite app_length; cbn; lia].
    - replace k with (length done + 0)%nat at 2 by lia. rewrite upd_app_r. rewrite <- app_assoc. reflexivity. }
  specialize (G 0 [] v). cbn [app plus] in G. rewrite HL in G. apply G; reflexivity.
Qed.
Lemma zrange_nat : forall lo n, zrange lo (Z.of_nat n) = map (fun k => (lo + Z.of_nat k)%Z) (seq 0 n).
Proof. intros lo n. unfold zrange. rewrite Nat2Z.id. reflexivity. Qed.
Lemma nth_map_seq : forall A (f : nat -> A) n s d, s < n -> nth s (map f (seq 0 n)) d = f s.
Proof.
  intros A f n s d H. apply nth_error_nth. rewrite nth_error_map. rewrite (@nth_error_nth' nat (seq 0 n) s 0) by (rewrite seq_length; exact H).
  rewrite seq_nth by exact H. reflexivity.
Qed.
Lemma nth_upd_other : forall A (v : list A) k j x d, k <> j -> nth j (upd v k x) d = nth j v d.
Proof. intros A. induction v as [|a v IH]; intros [|k] [|j] x d H; cbn; try reflexivity; try (destruct j; reflexivity); try congruence. apply IH. congruence. Qed.

Lemma vget_nth : forall A (l : list A) i d, i < length l -> vget l i = Ok (nth i l d).
Proof. intros A l i d H. unfold vget. rewrite (nth_error_nth' l d H). reflexivity. Qed.

Lemma month_hours_pos : forall k, k < 12 -> 0 < month_hours k.
Proof. intros k H. unfold month_hours, days_of. pose proof (days_before_bounds (Z.of_nat k + 1) ltac:(lia)). lia. Qed.


Section Year.
Context {T : Type} {N : Num T}.
Local Open Scope num_scope.
Notation z0 := (zn 0 : T).
Variables dbt dpt rh egh wspd : list T.
Variable eglobe : list (list T).
Variable frame : list (option tcell).
Definition add_row (row r : list T) : list T := map (fun s => nth s r z0 + nth s row z0) (seq 0 8).
Definition add_hour (h : nat) (x : T) (r : list T) : list T := upd r h (nth h r z0 + x).
Definition acc_bins (b : bins) (i : nat) : bins :=
  mkBins (b_dbt b + nth i dbt z0) (b_dpt b + nth i dpt z0) (b_rh b + nth i rh z0) (b_wind b + nth i wspd z0) (b_egh b + nth i egh z0)
    (add_row (nth i eglobe []) (b_sol b))
    (add_hour (i mod 24) (nth i dbt z0) (b_hdbt b)) (add_hour (i mod 24) (nth i dpt z0) (b_hdpt b)) (add_hour (i mod 24) (nth i egh z0) (b_hegh b)).
Lemma acc_bins_ok : forall b i, bins_ok b -> bins_ok (acc_bins b i).
Proof.
  intros b i (A&B&C&D). unfold bins_ok, acc_bins, add_row, add_hour. cbn [b_sol b_hdbt b_hdpt b_hegh].
  rewrite map_length, seq_length, !upd_length. repeat split; assumption.
Qed.
Lemma zero_bins_ok : bins_ok (zero_bins : bins).
Proof. unfold bins_ok, zero_bins. cbn [b_sol b_hdbt b_hdpt b_hegh]. rewrite !repeat_length. repeat split. Qed.

Definition total (k : nat) : bins := fold_left acc_bins (hours_of k) zero_bins.
Lemma total_ok : forall k, bins_ok (total k).
Proof.
  intros k. unfold total. generalize zero_bins_ok. generalize (zero_bins : @bins T). induction (hours_of k) as [|i l IH]; intros b H; [exact H|].
  cbn [fold_left]. apply IH. apply acc_bins_ok. exact H.
Qed.
Definition final (k : nat) : bins := scale (zn (Z.of_nat (month_hours k))) (zn (monthLength (Z.of_nat k + 1))) (total k).

Definition filled (n : nat) (a : averages T) : averages T := fold_left (fun a k => set_bins k (final k) a) (seq 0 n) a.
Lemma scale_ok : forall c d (b : @bins T), bins_ok b -> bins_ok (scale c d b).
Proof. intros c d b (A&B&C&D). unfold bins_ok, scale. cbn [b_sol b_hdbt b_hdpt b_hegh]. rewrite !map_length. repeat split; assumption. Qed.
Lemma filled_shaped : forall n a, shaped a -> shaped (filled n a).
Proof.
  intros n a H. unfold filled. generalize (seq 0 n). intros l. revert a H. induction l as [|k l IH]; intros a H; [exact H|].
  cbn [fold_left]. apply IH. apply shaped_set; [exact H|]. apply scale_ok, total_ok.
Qed.
Lemma filled_S : forall n a, filled (S n) a = set_bins n (final n) (filled n a).
Proof. intros n a. unfold filled. rewrite seq_S, fold_left_app. reflexivity. Qed.

(** Reading the filled bins. *)
Lemma filled_field : forall A (p : averages T -> list A) (g : bins -> A), (forall k b a, p (set_bins k b a) = upd (p a) k (g b)) ->
  forall a, length (p a) = 12 -> p (filled 12 a) = map (fun k => g (final k)) (seq 0 12).
Proof.
  intros A p g H a HL. rewrite <- (upd_all A (fun k => g (final k)) (p a) 12 HL). unfold filled.
  clear HL. revert a. generalize (seq 0 12). induction l as [|k l IH]; intros a; [reflexivity|]. cbn [fold_left]. rewrite IH, H. reflexivity.
Qed.

Lemma fold_proj : forall (g : bins -> T) (x : nat -> T), (forall b i, g (acc_bins b i) = g b + x i) ->
  forall l b, g (fold_left acc_bins l b) = fold_left nadd (map x l) (g b).
Proof. intros g x H. induction l as [|i l IH]; intros b; [reflexivity|]. cbn [fold_left map]. rewrite IH, H. reflexivity. Qed.

Lemma monthly_means_eq : forall l, monthly_means l =
  map (fun k => accumulate (month_part (Z.of_nat k + 1) l) / zn (Z.of_nat (month_hours k))) (seq 0 12).
Proof.
  intros l. unfold monthly_means. change 12%Z with (Z.of_nat 12) at 1. rewrite zrange_nat, map_map. apply map_ext_in. intros k HK.
  apply in_seq in HK. replace (1 + Z.of_nat k)%Z with (Z.of_nat k + 1)%Z by lia. do 2 f_equal. unfold month_hours, days_of.
  pose proof (days_before_bounds (Z.of_nat k + 1) ltac:(lia)). lia.
Qed.
Lemma hourly_means_eq : forall l, hourly_means l =
  map (fun k => map (fun h => accumulate (hour_part (Z.of_nat k + 1) (Z.of_nat h) l) / zn (monthLength (Z.of_nat k + 1))) (seq 0 24)) (seq 0 12).
Proof.
  intros l. unfold hourly_means. change 12%Z with (Z.of_nat 12) at 1. rewrite zrange_nat, map_map. apply map_ext_in. intros k HK.
  apply in_seq in HK. replace (1 + Z.of_nat k)%Z with (Z.of_nat k + 1)%Z by lia. change 24%Z with (Z.of_nat 24) at 1. rewrite zrange_nat, map_map.
  apply map_ext. intros h. rewrite month_length_days by lia. do 2 f_equal.
Qed.

Lemma monthly_field : forall (g : bins -> T) (l : list T), length l = slices ->
  (forall b i, g (acc_bins b i) = g b + nth i l z0) -> g zero_bins = z0 -> (forall c d b, g (scale c d b) = g b / c) ->
  map (fun k => g (final k)) (seq 0 12) = monthly_means l.
Proof.
  intros g l HL H H0 HS. rewrite monthly_means_eq. apply map_ext_in. intros k HK. apply in_seq in HK.
  unfold final. rewrite HS. f_equal. unfold total. rewrite (fold_proj g (fun i => nth i l z0) H), H0.
  rewrite (month_part_seq T l k z0) by (try exact HL; lia). reflexivity.
Qed.

(** Rows. *)
Lemma list_as_nth : forall (l : list T) n, length l = n -> l = map (fun j => nth j l z0) (seq 0 n).
Proof. intros l n <-. symmetry. etransitivity; [apply (map_nth_seq T T (fun x => x))|apply map_id]. Qed.
Lemma hour_row_sum : forall (g : bins -> list T) (l : list T) h, h < 24 ->
  (forall b i, g (acc_bins b i) = add_hour (i mod 24) (nth i l z0) (g b)) ->
  forall hs b, length (g b) = 24 ->
  nth h (g (fold_left acc_bins hs b)) z0 = fold_left nadd (map (fun i => nth i l z0) (filter (fun i => (i mod 24 =? h)%nat) hs)) (nth h (g b) z0).
Proof.
  intros g l h HH H. induction hs as [|i hs IH]; intros b HL; [reflexivity|].
  cbn [fold_left filter]. rewrite IH by (rewrite H; unfold add_hour; rewrite upd_length; exact HL). rewrite H. unfold add_hour.
  destruct (Nat.eqb_spec (i mod 24) h) as [->|NE].
  - cbn [map fold_left]. rewrite nth_upd_same by lia. reflexivity.
  - rewrite nth_upd_other by exact NE. reflexivity.
Qed.
Lemma hourly_field : forall (g : bins -> list T) (l : list T), length l = slices ->
  (forall b i, g (acc_bins b i) = add_hour (i mod 24) (nth i l z0) (g b)) -> g zero_bins = repeat z0 24 ->
  (forall b, bins_ok b -> length (g b) = 24) -> (forall c d b, g (scale c d b) = map (fun x => x / d) (g b)) ->
  map (fun k => g (final k)) (seq 0 12) = hourly_means l.
Proof.
  intros g l HL H H0 HB HS. rewrite hourly_means_eq. apply map_ext_in. intros k HK. apply in_seq in HK.
  unfold final. rewrite HS. rewrite (list_as_nth (g (total k)) 24) by (apply HB, total_ok). rewrite map_map. apply map_ext_in. intros h HH. apply in_seq in HH.
  f_equal. unfold total. rewrite (hour_row_sum g l h) by (try assumption; try lia; rewrite H0; apply repeat_length).
  rewrite (hour_part_seq T l k h z0) by (try exact HL; lia). unfold accumulate. f_equal. rewrite H0.
  apply (repeat_spec 24 z0). apply nth_In. rewrite repeat_length. lia.
Qed.

Lemma sol_sum : forall s, s < 8 -> forall hs b, nth s (b_sol (fold_left acc_bins hs b)) z0 =
  fold_left nadd (map (fun i => nth s (nth i eglobe []) z0) hs) (nth s (b_sol b) z0).
Proof.
  intros s HS. induction hs as [|i hs IH]; intros b; [reflexivity|]. cbn [fold_left map]. rewrite IH. f_equal.
  unfold acc_bins, add_row. cbn [b_sol]. apply (nth_map_seq T (fun s => nth s (b_sol b) z0 + nth s (nth i eglobe []) z0) 8 s z0 HS).
Qed.
Hypothesis Hdbt : length dbt = slices.
Hypothesis Hdpt : length dpt = slices.
Hypothesis Hrh : length rh = slices.
Hypothesis Hegh : length egh = slices.
Hypothesis Hwspd : length wspd = slices.
Hypothesis Hglobe : length eglobe = slices /\ Forall (fun r => length r = 8) eglobe.
Hypothesis Hframe : good_frame frame.


Lemma accumulate_ok : forall i k b a, i < slices -> k < 12 -> shaped a -> bins_ok b ->
  accumulateHour dbt dpt rh egh wspd eglobe i (i mod 24) k (set_bins k b a) = Ok (set_bins k (acc_bins b i) a).
Proof.
  intros i k b a HI HK SH BO. pose proof (shaped_set k b a SH BO) as SH2.
  destruct SH2 as (A1&A2&A3&A4&A5&(A6&B6)&(A7&B7)&(A8&B8)&(A9&B9)). destruct BO as (C1&C2&C3&C4).
  destruct Hglobe as [HG1 HG2].
  assert (H24 : i mod 24 < 24) by (apply Nat.mod_upper_bound; discriminate).
  assert (HR : length (nth i eglobe []) = 8) by (apply (proj1 (Forall_forall _ _) HG2); apply nth_In; lia).
  unfold accumulateHour. 
  rewrite (vget_nth T dbt i z0), (vget_nth T dpt i z0), (vget_nth T rh i z0), (vget_nth T egh i z0), (vget_nth T wspd i z0) by lia.
  cbn [obind]. rewrite !(vmod_ok _ k _ z0) by lia. cbn [obind].
  rewrite (row_loop _ (fun s y => y + nth s (nth i eglobe []) z0) z0 k 8).
  2:{ intros m' j L1 L2 L3. rewrite (vget_nth _ eglobe i []) by lia. cbn [obind]. rewrite (vget_nth _ _ j z0) by lia. cbn [obind].
      rewrite (mmod_ok m' k j _ z0) by assumption. reflexivity. }
  2:{ lia. } 2:{ apply row_length; [assumption|lia]. }
  cbn [obind].
  rewrite (mmod_ok (av_hdbt (set_bins k b a)) k _ _ z0); [|lia|rewrite (row_length 24); [exact H24|assumption|lia]]. cbn [obind].
  rewrite (mmod_ok (av_hdpt (set_bins k b a)) k _ _ z0); [|lia|rewrite (row_length 24); [exact H24|assumption|lia]]. cbn [obind].
  rewrite (mmod_ok (av_hegh (set_bins k b a)) k _ _ z0); [|lia|rewrite (row_length 24); [exact H24|assumption|lia]]. cbn [obind].
  destruct SH as (S1&S2&S3&S4&S5&(S6&_)&(S7&_)&(S8&_)&(S9&_)).
  unfold set_bins, acc_bins, add_row, add_hour.
  cbn [av_mdbt av_mdpt av_mrh av_mwind av_megh av_msol av_hdbt av_hdpt av_hegh b_dbt b_dpt b_rh b_wind b_egh b_sol b_hdbt b_hdpt b_hegh].
  rewrite !upd_upd. rewrite !nth_upd_same by lia. reflexivity.
Qed.

Notation step := (averageHour frame dbt dpt rh egh wspd eglobe).

(** The hours of a month after its first. *)
Lemma month_rest : forall k a n lo b cnt, k < 12 -> shaped a -> bins_ok b ->
  first_hour k <= lo -> lo + n <= first_hour k + month_hours k ->
  ofold step (seq lo n) (mkAvgstate (set_bins k b a) (Z.of_nat k + 1) (Z.of_nat k) cnt) =
  Ok (mkAvgstate (set_bins k (fold_left acc_bins (seq lo n) b) a) (Z.of_nat k + 1) (Z.of_nat k) (cnt + Z.of_nat n)).
Proof.
  intros k a n. induction n as [|n IH]; intros lo b cnt HK SH BO H1 H2.
  - cbn [seq ofold fold_left]. rewrite Z.add_0_r. reflexivity.
  - cbn [seq ofold fold_left]. unfold averageHour at 1.
    destruct (Hframe k lo HK ltac:(lia)) as (c&C1&C2&C3&_). rewrite C1. cbn [obind].
    unfold monthChange. cbn [as_month]. rewrite C2, Z.eqb_refl. cbn [obind as_midx as_avg as_cnt as_month].
    unfold index. rewrite (proj2 (Z.ltb_ge (Z.of_nat k) 0)) by lia. cbn [obind]. rewrite C3.
    rewrite (proj2 (Z.ltb_ge (Z.of_nat (lo mod 24)) 0)) by lia. cbn [obind]. rewrite !Nat2Z.id.
    pose proof (year_bound k lo HK ltac:(lia)) as YB.
    rewrite accumulate_ok by assumption. cbn [obind].
    rewrite IH; [|exact HK|exact SH|apply acc_bins_ok; exact BO|lia|lia]. f_equal. f_equal. lia.
Qed.

Lemma one_month : forall k a a' cnt, k < 12 -> shaped a' ->
  calculateMonthAvg (Z.of_nat k - 1) cnt a = Ok a' ->
  ofold step (hours_of k) (mkAvgstate a (Z.of_nat k) (Z.of_nat k - 1) cnt) =
  Ok (mkAvgstate (set_bins k (total k) a') (Z.of_nat k + 1) (Z.of_nat k) (Z.of_nat (month_hours k))).
Proof.
  intros k a a' cnt HK SH E. pose proof (month_hours_pos k HK) as MP. unfold hours_of.
  assert (exists n, month_hours k = S n) as [n En] by (exists (month_hours k - 1)%nat; lia). unfold total, hours_of. rewrite En.
  cbn [seq ofold fold_left]. unfold averageHour at 1.
  destruct (Hframe k (first_hour k) HK ltac:(lia)) as (c&C1&C2&C3&_). rewrite C1. cbn [obind].
  unfold monthChange. cbn [as_month as_midx as_cnt as_avg]. rewrite C2. rewrite (proj2 (Z.eqb_neq _ _)) by lia.
  rewrite E. cbn [obind]. replace (Z.of_nat k - 1 + 1)%Z with (Z.of_nat k) by lia.
  rewrite clear_ok by assumption. cbn [obind as_midx as_avg as_cnt as_month].
  unfold index. rewrite (proj2 (Z.ltb_ge (Z.of_nat k) 0)) by lia. cbn [obind]. rewrite C3.
  rewrite (proj2 (Z.ltb_ge (Z.of_nat (first_hour k mod 24)) 0)) by lia. cbn [obind]. rewrite !Nat2Z.id.
  pose proof (year_bound k (first_hour k) HK ltac:(lia)) as YB.
  rewrite accumulate_ok by (try assumption; apply zero_bins_ok). cbn [obind].
  rewrite month_rest; [|exact HK|exact SH|apply acc_bins_ok, zero_bins_ok|lia|lia]. f_equal. f_equal. lia.
Qed.

Lemma months_loop : forall n a, n < 12 -> shaped a ->
  ofold step (concat (map hours_of (seq 0 (S n)))) (mkAvgstate a 0 (-1) 0) =
  Ok (mkAvgstate (set_bins n (total n) (filled n a)) (Z.of_nat n + 1) (Z.of_nat n) (Z.of_nat (month_hours n))).
Proof.
  induction n as [|n IH]; intros a HN SH.
  - cbn [seq map concat]. rewrite app_nil_r. apply (one_month 0 a a 0); [lia|exact SH|reflexivity].
  - rewrite seq_S, map_app, concat_app, ofold_app, IH by (try exact SH; lia). cbn [obind map concat plus]. rewrite app_nil_r.
    replace (Z.of_nat n + 1)%Z with (Z.of_nat (S n)) by lia.
    assert (E : calculateMonthAvg (Z.of_nat (S n) - 1) (Z.of_nat (month_hours n)) (set_bins n (total n) (filled n a)) = Ok (filled (S n) a)).
    { replace (Z.of_nat (S n) - 1)%Z with (Z.of_nat n) by lia. rewrite avg_ok; [|lia|apply filled_shaped; exact SH|apply total_ok].
      rewrite filled_S. reflexivity. }
    pose proof (one_month (S n) _ _ (Z.of_nat (month_hours n)) HN (filled_shaped (S n) a SH) E) as P.
    replace (Z.of_nat (S n) - 1)%Z with (Z.of_nat n) in P by lia. exact P.
Qed.

Lemma year_loop : forall a, shaped a ->
  obind (ofold step (seq 0 slices) (mkAvgstate a 0 (-1) 0)) (fun st => calculateMonthAvg (as_midx st) (as_cnt st) (as_avg st)) =
  Ok (filled 12 a).
Proof.
  intros a SH. rewrite year_seq, months_loop by (try exact SH; lia). cbn [obind as_midx as_cnt as_avg].
  rewrite avg_ok; [|lia|apply filled_shaped; exact SH|apply total_ok]. rewrite filled_S. reflexivity.
Qed.

Lemma solar_field : map (fun k => b_sol (final k)) (seq 0 12) =
  map (fun k => map (fun s => nth k (monthly_means (surface_series s eglobe)) z0) (seq 0 8)) (seq 0 12).
Proof.
  apply map_ext_in. intros k HK. apply in_seq in HK. unfold final, scale. cbn [b_sol].
  rewrite (list_as_nth (b_sol (total k)) 8) by (apply total_ok). rewrite map_map. apply map_ext_in. intros s HS. apply in_seq in HS.
  rewrite monthly_means_eq, nth_map_seq by lia. f_equal. unfold total. rewrite sol_sum by lia. unfold accumulate.
  destruct Hglobe as [HG _].
  rewrite (month_part_seq T (surface_series s eglobe) k z0) by (try lia; unfold surface_series; rewrite map_length; exact HG).
  f_equal.
  - apply map_ext_in. intros i HI. unfold hours_of in HI. apply in_seq in HI. pose proof (year_bound k i ltac:(lia) HI) as YB.
    unfold surface_series. symmetry. apply nth_error_nth. rewrite nth_error_map. rewrite (nth_error_nth' eglobe []) by lia. reflexivity.
  - apply (repeat_spec 8 z0). apply nth_In. cbn [zero_bins b_sol]. rewrite repeat_length. lia.
Qed.
End Year.
