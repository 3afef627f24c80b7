(** Schedules in the monthly engine. *)
From Coq Require Import Reals Lra Psatz ZArith List Bool Lia.
From Verif Require Import Base Num Xr M_Params M_Hourly M_Monthly M_Map L_Xr L_HourlyShape L_HourlyFin2 L_Office S_Calendar S_Schedule.
Import ListNotations.
Open Scope R_scope.

(** *** Vectors of finite numbers *)
Lemma zipw_fin (f : xr -> xr -> xr) (g : R -> R -> R) : (forall a b, f (Fin a) (Fin b) = Fin (g a b)) ->
  forall a b, zipw f (map Fin a) (map Fin b) = map Fin (zipw g a b).
Proof. intros H. induction a as [|x a IH]; intros [|y b]; cbn; try reflexivity. now rewrite H, IH. Qed.
Lemma vmul_fin a b : vmul (map Fin a) (map Fin b) = map Fin (vmul a b).
Proof. apply zipw_fin. reflexivity. Qed.
Lemma vadd_fin a b : vadd (map Fin a) (map Fin b) = map Fin (vadd a b).
Proof. apply zipw_fin. reflexivity. Qed.
Lemma vsub_fin a b : vsub (map Fin a) (map Fin b) = map Fin (vsub a b).
Proof. apply zipw_fin. reflexivity. Qed.
Lemma vmax_fin a b : vmax (map Fin a) (map Fin b) = map Fin (vmax a b).
Proof. apply zipw_fin. exact max_fin. Qed.
Lemma sdiv_fin a b : sdiv (Fin a) (Fin b) = Fin (sdiv a b).
Proof.
  unfold sdiv. rewrite zn_fin, eqb_fin. cbn [neqb R_num]. destruct (Reqb_spec b (zn 0)) as [E|E]; [reflexivity|].
  apply div_fin. intros ->. apply E. unfold zn. cbn [lit R_num]. unfold Rlit. lra.
Qed.
Lemma vdiv_fin a b : vdiv (map Fin a) (map Fin b) = map Fin (vdiv a b).
Proof. apply zipw_fin. exact sdiv_fin. Qed.
Lemma map_map_fin (f : xr -> xr) (g : R -> R) : (forall a, f (Fin a) = Fin (g a)) -> forall v, map f (map Fin v) = map Fin (map g v).
Proof. intros H v. rewrite !map_map. now apply map_ext. Qed.
Lemma scale_fin v s : scale (map Fin v) (Fin s) = map Fin (scale v s).
Proof. apply map_map_fin. reflexivity. Qed.
Lemma shift_fin v s : shift (map Fin v) (Fin s) = map Fin (shift v s).
Proof. apply map_map_fin. reflexivity. Qed.
Lemma divs_fin v s : divs (map Fin v) (Fin s) = map Fin (divs v s).
Proof. apply map_map_fin. intros. apply sdiv_fin. Qed.
Lemma vsum_fin v : vsum (map Fin v) = Fin (vsum v).
Proof. apply accumulate_fin. Qed.
Lemma repeat_fin x n : repeat (Fin x) n = map Fin (repeat x n).
Proof. induction n; cbn; congruence. Qed.
Lemma all12_fin x : all12 (Fin x) = map Fin (all12 x).
Proof. reflexivity. Qed.
Lemma mega_fin : @megasecondsInMonth xr _ = map Fin megasecondsInMonth.
Proof. reflexivity. Qed.
Lemma hours_fin : @hoursInMonth xr _ = map Fin hoursInMonth.
Proof. reflexivity. Qed.
Lemma days_fin : @daysInMonth xr _ = map Fin daysInMonth.
Proof. reflexivity. Qed.
Lemma fraction_fin : @monthFractionOfYear xr _ = map Fin monthFractionOfYear.
Proof. reflexivity. Qed.

Lemma sdiv_R (a b : R) : b <> 0 -> sdiv a b = a / b.
Proof. intros H. unfold sdiv. cbn [neqb R_num]. rewrite Reqb_false; [reflexivity|]. unfold zn; cbn [lit R_num]; unfold Rlit. intros E. apply H. rewrite E. lra. Qed.

Lemma zipw_length {A B C} (f : A -> B -> C) : forall a b, length (zipw f a b) = Nat.min (length a) (length b).
Proof. induction a as [|x a IH]; intros [|y b]; cbn; try reflexivity. now rewrite IH. Qed.
Lemma nth_zipw {A B C} (f : A -> B -> C) : forall a b i x y, nth_error a i = Some x -> nth_error b i = Some y ->
  nth_error (zipw f a b) i = Some (f x y).
Proof.
  induction a as [|u a IH]; intros b i x y Ha Hb; [destruct i; discriminate|].
  destruct b as [|v b]; [destruct i; discriminate|]. destruct i; cbn in *; [congruence|eauto].
Qed.

(** *** Schedules *)
Definition hoursR (po : population_t R) : R := hoursPerDay po.
Lemma hoursPerDay_fin po : hoursPerDay (map_population Fin po) = Fin (hoursPerDay po).
Proof.
  unfold hoursPerDay. cbn [map_population po_hoursEnd po_hoursStart]. rewrite sub_fin, !zn_fin, lt_fin, add_fin. apply if_fin.
Qed.
Lemma daysPerWeek_fin po : daysPerWeek (map_population Fin po) = Fin (daysPerWeek po).
Proof.
  unfold daysPerWeek. cbn [map_population po_daysEnd po_daysStart]. rewrite sub_fin, !zn_fin, add_fin, lt_fin, add_fin. apply if_fin.
Qed.

(** The fractions of the week, as real numbers. *)
Definition fWkDay (h d : R) := h * d / 168.
Definition fWkNt (h d : R) := (d - 1) * (24 - h) / 168.
Definition fWkeTot (h d : R) := (168 - h * d - (d - 1) * (24 - h)) / 168.
Definition fWkeDay (h d : R) := (7 - d) * h / 168.
Definition fWkeNt (h d : R) := (168 - h * d - (d - 1) * (24 - h) - (7 - d) * h) / 168.

Ltac finR := repeat progress rewrite ?zn_fin, ?lit_fin, ?add_fin, ?sub_fin, ?mul_fin, ?opp_fin.
Lemma div_fin' a b : b <> 0 -> ndiv (Fin a) (Fin b) = Fin (a / b).
Proof. exact (div_fin a b). Qed.
Lemma clockMask_fin h y n : clockMask (Fin h) (Fin y) (Fin n) = map Fin (clockMask h y n).
Proof.
  unfold clockMask. rewrite map_map. apply map_ext. intros k. rewrite !zn_fin, sub_fin. unfold nle. rewrite !lt_fin, eqb_fin.
  symmetry. destruct (_ && _)%bool; reflexivity.
Qed.
Lemma schedule_fin po : let h := hoursPerDay po in let d := daysPerWeek po in
  scheduleAndOccupancy (map_population Fin po) =
  {| oc_wkOcc := map Fin (scale megasecondsInMonth (fWkDay h d)); oc_wkUnocc := map Fin (scale megasecondsInMonth (fWkNt h d));
     oc_weOcc := map Fin (scale megasecondsInMonth (fWkeDay h d)); oc_weUnocc := map Fin (scale megasecondsInMonth (fWkeNt h d));
     oc_clockOcc := map Fin (clockMask h 1 0); oc_clockUnocc := map Fin (clockMask h 0 1);
     oc_wk_day := Fin (fWkDay h d); oc_hoursUnocc := Fin (24 - h); oc_hoursOcc := Fin h; oc_wk_nt := Fin (fWkNt h d); oc_wke_tot := Fin (fWkeTot h d) |}.
Proof.
  intros h d. unfold scheduleAndOccupancy. rewrite hoursPerDay_fin, daysPerWeek_fin. fold h d. clearbody h d.
  unfold hoursInWeek. finR.
  assert (N168 : (@zn R _ 168) = 168) by (unfold zn; cbn [lit R_num]; unfold Rlit; lra).
  assert (N24 : (@zn R _ 24) = 24) by (unfold zn; cbn [lit R_num]; unfold Rlit; lra).
  assert (N7 : (@zn R _ 7) = 7) by (unfold zn; cbn [lit R_num]; unfold Rlit; lra).
  assert (N1 : (@zn R _ 1) = 1) by (unfold zn; cbn [lit R_num]; unfold Rlit; lra).
  assert (N0 : (@zn R _ 0) = 0) by (unfold zn; cbn [lit R_num]; unfold Rlit; lra).
  rewrite N168, N24, N7, N1, N0, !div_fin' by lra. rewrite !mega_fin, !scale_fin, !clockMask_fin.
  reflexivity.
Qed.

Lemma mega_nth m : (m < 12)%nat -> nth_error (@megasecondsInMonth R _) m = Some (month_megaseconds m).
Proof.
  intros H. do 12 (destruct m as [|m]; [unfold month_megaseconds; cbn [nth_error megasecondsInMonth map nth days_in_month lit R_num]; unfold Rlit; f_equal; lra|]). lia.
Qed.
Lemma scale_nth v (s : R) m x : nth_error v m = Some x -> nth_error (map Fin (scale v s)) m = Some (Fin (x * s)).
Proof. intros H. unfold scale. rewrite map_map, nth_error_map, H. reflexivity. Qed.

Lemma C20_week_l po : exists a b c,
  let oc := scheduleAndOccupancy (map_population Fin po) in
  oc_wk_day oc = Fin a /\ oc_wk_nt oc = Fin b /\ oc_wke_tot oc = Fin c /\ a + b + c = 1.
Proof.
  exists (fWkDay (hoursPerDay po) (daysPerWeek po)), (fWkNt (hoursPerDay po) (daysPerWeek po)), (fWkeTot (hoursPerDay po) (daysPerWeek po)).
  cbv zeta. rewrite schedule_fin. repeat split. unfold fWkDay, fWkNt, fWkeTot. field.
Qed.
Lemma C20_months_l po m : (m < 12)%nat -> exists a b c d,
  let oc := scheduleAndOccupancy (map_population Fin po) in
  nth_error (oc_wkOcc oc) m = Some (Fin a) /\ nth_error (oc_wkUnocc oc) m = Some (Fin b) /\
  nth_error (oc_weOcc oc) m = Some (Fin c) /\ nth_error (oc_weUnocc oc) m = Some (Fin d) /\ a + b + c + d = month_megaseconds m.
Proof.
  intros H. pose proof (mega_nth m H) as E.
  do 4 eexists. cbv zeta. rewrite schedule_fin. cbn [oc_wkOcc oc_wkUnocc oc_weOcc oc_weUnocc].
  split; [apply (scale_nth _ _ _ _ E)|]. split; [apply (scale_nth _ _ _ _ E)|]. split; [apply (scale_nth _ _ _ _ E)|].
  split; [apply (scale_nth _ _ _ _ E)|]. unfold fWkDay, fWkNt, fWkeDay, fWkeNt. field.
Qed.

Lemma hoursPerDay_Z po hs he ds de : whole_schedule po hs he ds de ->
  hoursPerDay po = IZR (if he - hs <? 0 then he - hs + 24 else he - hs)%Z.
Proof.
  intros (Hs & He & _ & _). unfold hoursPerDay. rewrite Hs, He. num. rewrite <- minus_IZR.
  destruct (Rltb_spec (IZR (he - hs)) (0 / 1)) as [L|L].
  - assert (he - hs < 0)%Z as L' by (apply lt_IZR; lra). apply Z.ltb_lt in L'. rewrite L', plus_IZR. lra.
  - assert (0 <= he - hs)%Z as L' by (apply le_IZR; lra). apply Z.ltb_ge in L'. now rewrite L'.
Qed.
Lemma daysPerWeek_Z po hs he ds de : whole_schedule po hs he ds de ->
  daysPerWeek po = IZR (if de - ds + 1 <? 0 then de - ds + 1 + 7 else de - ds + 1)%Z.
Proof.
  intros (_ & _ & Ds & De). unfold daysPerWeek. rewrite Ds, De. num.
  replace (IZR de - IZR ds + 1 / 1) with (IZR (de - ds + 1)) by (rewrite plus_IZR, minus_IZR; lra).
  destruct (Rltb_spec (IZR (de - ds + 1)) (0 / 1)) as [L|L].
  - assert (de - ds + 1 < 0)%Z as L' by (apply lt_IZR; lra). apply Z.ltb_lt in L'. rewrite L'. rewrite (plus_IZR _ 7). lra.
  - assert (0 <= de - ds + 1)%Z as L' by (apply le_IZR; lra). apply Z.ltb_ge in L'. now rewrite L'.
Qed.

Lemma C20_sign_l po hs he ds de : whole_schedule po hs he ds de -> clock_schedule hs he ds de -> de <> (ds - 1)%Z ->
  exists a b c, let oc := scheduleAndOccupancy (map_population Fin po) in
  oc_wk_day oc = Fin a /\ oc_wk_nt oc = Fin b /\ oc_wke_tot oc = Fin c /\ 0 <= a /\ 0 <= b /\ 0 <= c.
Proof.
  intros W (H1 & H2 & H3 & H4) H5. do 3 eexists. cbv zeta. rewrite schedule_fin. cbn [oc_wk_day oc_wk_nt oc_wke_tot].
  split; [reflexivity|]. split; [reflexivity|]. split; [reflexivity|].
  rewrite (hoursPerDay_Z po hs he ds de W), (daysPerWeek_Z po hs he ds de W).
  set (h := (if he - hs <? 0 then he - hs + 24 else he - hs)%Z). set (d := (if de - ds + 1 <? 0 then de - ds + 1 + 7 else de - ds + 1)%Z).
  assert (0 <= h <= 24)%Z as Hh by (unfold h; destruct (Z.ltb_spec (he - hs) 0); lia).
  assert (1 <= d <= 7)%Z as Hd by (unfold d; destruct (Z.ltb_spec (de - ds + 1) 0); lia).
  clearbody h d. destruct Hh as [h0 h1], Hd as [d0 d1]. apply IZR_le in h0, h1, d0, d1.
  unfold fWkDay, fWkNt, fWkeTot, Rdiv. repeat split; (apply Rmult_le_pos; [|lra]).
  - nra.
  - apply Rmult_le_pos; lra.
  - replace (168 - IZR h * IZR d - (IZR d - 1) * (24 - IZR h)) with (192 - 24 * IZR d - IZR h) by ring. lra.
Qed.

Lemma C22_days_l po hs he s d : (0 <= s <= 6)%Z -> (1 <= d <= 7)%Z -> (d < 7 \/ s = 0)%Z ->
  whole_schedule po hs he s (last_day s d) -> daysPerWeek (map_population Fin po) = Fin (IZR d).
Proof.
  intros Hs Hd H W. rewrite daysPerWeek_fin, (daysPerWeek_Z po hs he s _ W). do 2 f_equal. unfold last_day.
  destruct (Z.lt_ge_cases (s + d - 1) 7) as [L|L].
  - rewrite Z.mod_small by lia. replace (s + d - 1 - s + 1)%Z with d by lia. destruct (Z.ltb_spec d 0); lia.
  - assert (E : ((s + d - 1) mod 7 = s + d - 8)%Z) by (symmetry; apply (Z.mod_unique _ 7 1); lia). rewrite E.
    destruct (Z.ltb_spec (s + d - 8 - s + 1) 0); lia.
Qed.
Lemma C22_all_week_l po hs he s : (1 <= s <= 6)%Z -> whole_schedule po hs he s (last_day s 7) ->
  daysPerWeek (map_population Fin po) = Fin 0.
Proof.
  intros Hs W. rewrite daysPerWeek_fin, (daysPerWeek_Z po hs he s _ W). do 2 f_equal. unfold last_day.
  assert (E : ((s + 7 - 1) mod 7 = s - 1)%Z) by (symmetry; apply (Z.mod_unique _ 7 1); lia). rewrite E.
  destruct (Z.ltb_spec (s - 1 - s + 1) 0); lia.
Qed.

(** Masks, for any number type. *)
Lemma C21_complement_l T (N : Num T) (po : population_t T) h : (h < 24)%nat -> let oc := scheduleAndOccupancy po in
  (nth_error (oc_clockOcc oc) h = Some (zn 1) /\ nth_error (oc_clockUnocc oc) h = Some (zn 0)) \/
  (nth_error (oc_clockOcc oc) h = Some (zn 0) /\ nth_error (oc_clockUnocc oc) h = Some (zn 1)).
Proof.
  intros H oc. unfold oc. cbn [scheduleAndOccupancy oc_clockOcc oc_clockUnocc]. unfold clockMask. rewrite !nth_error_map.
  destruct (nth_error (zrange 0 24) h) as [k|] eqn:E.
  - cbn [option_map]. destruct (_ && _)%bool; [left|right]; split; reflexivity.
  - apply nth_error_None in E. change (length (zrange 0 24)) with 24%nat in E. lia.
Qed.
Lemma zrange24 h : (h < 24)%nat -> nth_error (zrange 0 24) h = Some (Z.of_nat h).
Proof. intros H. do 24 (destruct h as [|h]; [reflexivity|]). lia. Qed.
(** The mask as the code has it: hours of the day from 7, as many as there are occupied hours. *)
Lemma mask_value po (h : nat) hs he ds de : whole_schedule po hs he ds de -> (h < 24)%nat ->
  nth_error (oc_clockOcc (scheduleAndOccupancy (map_population Fin po))) h =
  Some (Fin (if open_at 7 (7 + (if he - hs <? 0 then he - hs + 24 else he - hs)) (Z.of_nat h) then 1 else 0)).
Proof.
  intros W H. rewrite schedule_fin. cbn [oc_clockOcc]. unfold clockMask. rewrite nth_error_map, nth_error_map, (zrange24 h H). cbn [option_map].
  rewrite (hoursPerDay_Z po hs he ds de W). do 2 f_equal. set (n := (if _ <? _ then _ else _)%Z). clearbody n. unfold nle, open_at. num.
  replace (IZR (Z.of_nat h) / 1 - 7 / 1) with (IZR (Z.of_nat h - 7)) by (rewrite minus_IZR; lra).
  set (z := Z.of_nat h). clearbody z.
  destruct (Z.leb_spec 7 z) as [A|A]; destruct (Z.ltb_spec z (7 + n)) as [B|B]; cbn [andb].
  - assert (0 <= IZR (z - 7)) by (apply (IZR_le 0); lia). assert (IZR (z - 7) < IZR n) by (apply IZR_lt; lia).
    rewrite (Rltb_true (IZR (z - 7))) by assumption. rewrite andb_true_r.
    destruct (Rltb_spec (0 / 1) (IZR (z - 7))); [reflexivity|]. rewrite Reqb_true by lra. reflexivity.
  - assert (IZR n <= IZR (z - 7)) by (apply IZR_le; lia). rewrite (Rltb_false (IZR (z - 7))) by assumption. rewrite andb_false_r. reflexivity.
  - assert (IZR (z - 7) <= -1) by (apply (IZR_le _ (-1)); lia). rewrite Rltb_false by lra. rewrite Reqb_false by lra. reflexivity.
  - assert (IZR (z - 7) <= -1) by (apply (IZR_le _ (-1)); lia). rewrite Rltb_false by lra. rewrite Reqb_false by lra. reflexivity.
Qed.
Lemma C21_from7_l po (h : nat) he ds de : whole_schedule po 7 he ds de -> (7 <= he <= 24)%Z -> (h < 24)%nat ->
  nth_error (oc_clockOcc (scheduleAndOccupancy (map_population Fin po))) h = Some (Fin (if open_at 7 he (Z.of_nat h) then 1 else 0)).
Proof.
  intros W He H. rewrite (mask_value po h 7 he ds de W H). destruct (Z.ltb_spec (he - 7) 0) as [L|L]; [exfalso; lia|]. replace (7 + (he - 7))%Z with he by lia. reflexivity.
Qed.
(** With any other start the first configured hour or hour 7 is wrong. *)
Lemma C21_other_l po hs he ds de : whole_schedule po hs he ds de -> (0 <= hs)%Z -> (hs < he <= 24)%Z -> hs <> 7%Z ->
  exists h, (h < 24)%nat /\
  nth_error (oc_clockOcc (scheduleAndOccupancy (map_population Fin po))) h <> Some (Fin (if open_at hs he (Z.of_nat h) then 1 else 0)).
Proof.
  intros W H0 H1 H2. assert (HH : (if he - hs <? 0 then he - hs + 24 else he - hs)%Z = (he - hs)%Z) by (destruct (Z.ltb_spec (he - hs) 0); lia).
  destruct (Z.lt_ge_cases hs 7) as [L|L].
  - exists (Z.to_nat hs). split; [lia|]. rewrite (mask_value po _ hs he ds de W) by lia. rewrite HH, Z2Nat.id by lia. unfold open_at.
    rewrite (proj2 (Z.leb_gt 7 hs)), (proj2 (Z.leb_le hs hs)), (proj2 (Z.ltb_lt hs he)) by lia. cbn [andb]. intros E. injection E. lra.
  - exists 7%nat. split; [lia|]. rewrite (mask_value po _ hs he ds de W) by lia. rewrite HH. change (Z.of_nat 7) with 7%Z. unfold open_at.
    rewrite (proj2 (Z.leb_le 7 7)), (proj2 (Z.ltb_lt 7 (7 + (he - hs)))), (proj2 (Z.leb_gt hs 7)) by lia. cbn [andb]. intros E. injection E. lra.
Qed.
