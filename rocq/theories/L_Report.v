(** Adding up the results of the OpenStudio build. *)
From Coq Require Import Reals List ZArith Lia Lra Permutation.
From Verif Require Import Base Num Xr M_Params M_Hourly M_Monthly M_Report S_Results L_Xr L_HourlyOut L_Turn L_Office L_YearCompare3 E_SmallOffice L_Monthly6.
Import ListNotations.
Open Scope nat_scope.

Lemma fuel_no_inj a b : fuel_no a = fuel_no b -> a = b.
Proof. destruct a, b; cbn; intros H; try reflexivity; try lia. f_equal. lia. Qed.
Lemma category_no_inj a b : category_no a = category_no b -> a = b.
Proof. destruct a, b; cbn; intros H; try reflexivity; try discriminate H; try lia. f_equal. lia. Qed.
Lemma key_spec a b : reflect (a = b) (key_eqb a b).
Proof.
  destruct a as [f c], b as [f' c']. unfold key_eqb. cbn [fst snd].
  destruct (Nat.eqb_spec (fuel_no f) (fuel_no f')) as [E|E]; cbn [andb].
  - destruct (Nat.eqb_spec (category_no c) (category_no c')) as [E'|E']; constructor.
    + rewrite (fuel_no_inj _ _ E), (category_no_inj _ _ E'). reflexivity.
    + intros H. injection H as -> ->. apply E'. reflexivity.
  - constructor. intros H. injection H as -> ->. apply E. reflexivity.
Qed.
Lemma slots_nodup : NoDup os_slots.
Proof. repeat constructor; cbn; intros H; repeat (destruct H as [H|H]; [discriminate H|]); exact H. Qed.

Section Any.
Context {T : Type} {N : Num T}.
Lemma add_new (e : os_enduses) v k : ~ In k (map fst e) -> os_add e v k = e ++ [(k, v)].
Proof.
  induction e as [|[k' v'] e IH]; intros H; [reflexivity|]. cbn [os_add]. destruct (key_spec k' k) as [E|E]; [exfalso; apply H; left; exact E|].
  cbn [app]. rewrite IH; [reflexivity|]. intros K. apply H. right. exact K.
Qed.
Lemma add_all : forall kvs (e : os_enduses), NoDup (map fst e ++ map fst kvs) -> fold_left (fun e kv => os_add e (snd kv) (fst kv)) kvs e = e ++ kvs.
Proof.
  induction kvs as [|[k v] kvs IH]; intros e H; [rewrite app_nil_r; reflexivity|]. cbn [fold_left fst snd map] in *.
  rewrite add_new; [|intros K; apply NoDup_remove_2 in H; apply H, in_or_app; left; exact K].
  rewrite IH; [rewrite <- app_assoc; reflexivity|]. rewrite map_app. cbn [map fst]. rewrite <- app_assoc. exact H.
Qed.
Lemma combine_fst {A B} : forall (l : list A) (m : list B), length m = length l -> map fst (combine l m) = l.
Proof. induction l as [|x l IH]; intros [|y m] H; try discriminate H; [reflexivity|]. cbn. rewrite IH; [reflexivity|]. cbn in H. lia. Qed.
Lemma combine_snd {A B} : forall (l : list A) (m : list B), length m = length l -> map snd (combine l m) = m.
Proof. induction l as [|x l IH]; intros [|y m] H; try discriminate H; [reflexivity|]. cbn. rewrite IH; [reflexivity|]. cbn in H. lia. Qed.
Lemma row_is (row : list T) : length row = 13 -> os_row row = combine os_slots row.
Proof. intros H. unfold os_row. rewrite add_all; [reflexivity|]. cbn [map app]. rewrite combine_fst by exact H. exact slots_nodup. Qed.
Lemma C110_entries_l (a b c d e f g h i j k l m : T) : let r := os_row [a; b; c; d; e; f; g; h; i; j; k; l; m] in
  os_get r (Electricity, Heating) = a /\ os_get r (Electricity, Cooling) = b /\ os_get r (Electricity, InteriorLights) = c /\ os_get r (Electricity, ExteriorLights) = d /\
  os_get r (Electricity, Fans) = e /\ os_get r (Electricity, Pumps) = f /\ os_get r (Electricity, InteriorEquipment) = g /\ os_get r (Electricity, ExteriorEquipment) = h /\
  os_get r (Electricity, WaterSystems) = i /\ os_get r (Gas, Heating) = j /\ os_get r (Gas, Cooling) = k /\ os_get r (Gas, InteriorEquipment) = l /\
  os_get r (Gas, WaterSystems) = m.
Proof. repeat split; reflexivity. Qed.
Lemma get_absent (e : os_enduses) k : ~ In k (map fst e) -> os_get e k = zn 0.
Proof.
  induction e as [|[k' v'] e IH]; intros H; [reflexivity|]. cbn [os_get]. destruct (key_spec k' k) as [E|E]; [exfalso; apply H; left; exact E|].
  apply IH. intros K. apply H. right. exact K.
Qed.
Lemma C110_others_l (row : list T) k : length row = 13 -> ~ In k os_slots -> os_get (os_row row) k = zn 0.
Proof. intros L H. apply get_absent. rewrite row_is by exact L. rewrite combine_fst by exact L. exact H. Qed.
End Any.

(** ** Sums *)
Lemma acc_cons (x : xr) l : accumulate (x :: l) = xadd x (accumulate l).
Proof. change (x :: l) with ([x] ++ l). rewrite accumulate_app. f_equal. unfold accumulate. cbn [fold_left]. rewrite xzero. apply xadd_0_l. Qed.
Lemma acc_perm (l m : list xr) : Permutation l m -> accumulate l = accumulate m.
Proof.
  induction 1; [reflexivity|rewrite !acc_cons, IHPermutation; reflexivity| |congruence].
  rewrite !acc_cons. rewrite !L_HourlyOut.xadd_assoc. f_equal. apply xadd_comm.
Qed.
Lemma acc_get : forall (e : os_enduses (T := xr)) l, NoDup l -> NoDup (map fst e) -> incl (map fst e) l -> accumulate (map (os_get e) l) = accumulate (map snd e).
Proof.
  induction e as [|[k v] e IH]; intros l NL NE I.
  - cbn [map]. clear. induction l as [|x l IH]; [reflexivity|]. cbn [map]. rewrite acc_cons, IH. unfold accumulate. cbn [fold_left os_get]. rewrite xzero. apply xadd_0_l.
  - cbn [map fst snd] in *. inversion NE as [|? ? NK NE']; subst.
    destruct (in_split k l (I k (or_introl eq_refl))) as (l1 & l2 & ->).
    assert (P : Permutation (l1 ++ k :: l2) (k :: l1 ++ l2)) by (symmetry; apply Permutation_middle).
    rewrite (acc_perm _ _ (Permutation_map _ P)). rewrite acc_cons, <- (IH _ NL NE' (fun x Hx => I x (or_intror Hx))).
    rewrite (acc_perm _ _ (Permutation_map (os_get e) P)). cbn [map]. rewrite !acc_cons. rewrite (get_absent e k NK), xzero, xadd_0_l.
    pose proof (NoDup_remove_2 _ _ _ NL) as NI. cbn [os_get]. destruct (key_spec k k) as [_|E]; [|exfalso; apply E; reflexivity]. f_equal. f_equal.
    apply map_ext_in. intros x Hx. cbn [os_get]. destruct (key_spec k x) as [E|E]; [subst x; contradiction|reflexivity].
Qed.
Lemma fold_prod {A B} (g : A * B -> xr) cs : forall fs t, fold_left (fun t f => fold_left (fun t c => nadd t (g (f, c))) cs t) fs t = xadd t (accumulate (map g (list_prod fs cs))).
Proof.
  assert (I : forall f l t, fold_left (fun t c => nadd t (g (f, c))) l t = xadd t (accumulate (map g (map (fun c => (f, c)) l)))).
  { intros f. induction l as [|c l IH]; intros t; cbn [fold_left map].
    - unfold accumulate. cbn [fold_left]. rewrite xzero. destruct t; cbn; try reflexivity. f_equal. lra.
    - rewrite IH, acc_cons. cbn [nadd xr_num]. symmetry. apply L_HourlyOut.xadd_assoc. }
  induction fs as [|f fs IH]; intros t; cbn [fold_left list_prod].
  - unfold accumulate. cbn [map fold_left]. rewrite xzero. destruct t; cbn; try reflexivity. f_equal. lra.
  - rewrite IH, I, map_app, accumulate_app. symmetry. apply L_HourlyOut.xadd_assoc.
Qed.
Lemma prod_nodup {A B} : forall (l : list A) (m : list B), NoDup l -> NoDup m -> NoDup (list_prod l m).
Proof.
  induction l as [|x l IH]; intros m NL NM; [constructor|]. inversion NL as [|? ? H NL']; subst. cbn [list_prod].
  assert (D : NoDup (map (fun y => (x, y)) m)) by (apply FinFun.Injective_map_NoDup; [intros a b E; injection E as ->; reflexivity|exact NM]).
  revert D. generalize (IH m NL' NM). intros R D.
  assert (S : forall k, In k (map (fun y => (x, y)) m) -> ~ In k (list_prod l m)).
  { intros [a b] K1 K2. apply in_map_iff in K1 as (y & E & _). injection E as -> ->. apply in_prod_iff in K2 as [K2 _]. contradiction. }
  clear -R D S. induction (map (fun y => (x, y)) m) as [|k r IHr]; [exact R|]. inversion D; subst. cbn [app]. constructor.
  - intros K. apply in_app_or in K as [K|K]; [contradiction|]. exact (S k (or_introl eq_refl) K).
  - apply IHr; [assumption|]. intros y Hy. apply S. right. exact Hy.
Qed.
(** All fuels and categories of the program, each once. *)
Lemma C110_total_l fuels cats (rows : list (list xr)) : NoDup fuels -> NoDup cats -> (forall f c, In (f, c) os_slots -> In f fuels /\ In c cats) ->
  Forall (fun row => length row = 13) rows -> totalEnergyUse fuels cats (map os_row rows) = accumulate (concat rows).
Proof.
  intros NF NC I F. unfold totalEnergyUse.
  assert (G : forall t, fold_left (fun t r => fold_left (fun t f => fold_left (fun t c => nadd t (os_get r (f, c))) cats t) fuels t) (map os_row rows) t = xadd t (accumulate (concat rows))).
  { induction F as [|row rows L F IH]; intros t; cbn [map fold_left concat].
    - unfold accumulate. cbn [fold_left]. rewrite xzero. destruct t; cbn; try reflexivity. f_equal. lra.
    - rewrite IH, fold_prod, acc_get.
      + rewrite row_is by exact L. rewrite combine_snd by exact L. rewrite accumulate_app. symmetry. apply L_HourlyOut.xadd_assoc.
      + apply prod_nodup; assumption.
      + rewrite row_is, combine_fst by exact L. exact slots_nodup.
      + rewrite row_is, combine_fst by exact L. intros [f c] K. apply in_prod_iff. exact (I f c K). }
  rewrite G, xzero. apply xadd_0_l.
Qed.

(** ** By columns *)
Lemma acc_add {A} (f g : A -> xr) l : accumulate (map (fun x => xadd (f x) (g x)) l) = xadd (accumulate (map f l)) (accumulate (map g l)).
Proof.
  induction l as [|x l IH]; cbn [map].
  - unfold accumulate. cbn [fold_left]. rewrite xzero. cbn. f_equal. lra.
  - rewrite !acc_cons, IH. rewrite !L_HourlyOut.xadd_assoc. f_equal. rewrite <- !L_HourlyOut.xadd_assoc. f_equal. apply xadd_comm.
Qed.
Lemma map_nth_seq {A} (d : A) l : map (fun k => nth k l d) (seq 0 (length l)) = l.
Proof.
  induction l as [|x l IH]; [reflexivity|]. cbn [length seq map nth]. f_equal. rewrite <- seq_shift, map_map. cbn [nth]. exact IH.
Qed.
Definition column (k : nat) (rows : list (list xr)) : list xr := map (fun row => nth k row (Fin 0)) rows.
Lemma acc_columns n (rows : list (list xr)) : Forall (fun row => length row = n) rows -> accumulate (concat rows) = accumulate (map (fun k => accumulate (column k rows)) (seq 0 n)).
Proof.
  induction 1 as [|row rows L F IH].
  - cbn [concat column map]. generalize (seq 0 n). intros s. unfold column. cbn [map]. induction s as [|x s IH]; [reflexivity|]. cbn [map]. rewrite acc_cons, <- IH. symmetry. unfold accumulate. cbn [fold_left]. rewrite xzero. apply xadd_0_l.
  - cbn [concat]. rewrite accumulate_app, IH. rewrite <- (map_nth_seq (Fin 0) row) at 1. rewrite L, <- acc_add. f_equal. apply map_ext. intros k. unfold column. cbn [map]. rewrite acc_cons. reflexivity.
Qed.
Lemma column_series n k (rows : list (list xr)) : (k < n)%nat -> Forall (fun row => length row = n) rows -> is_series k rows (column k rows).
Proof.
  intros K. induction 1 as [|row rows L F IH]; [constructor|]. unfold column. cbn [map]. constructor; [|exact IH]. apply nth_error_nth'. lia.
Qed.
Lemma C110_same_l fuels cats (p : params_t xr) ws r0 mres r hres r' : NoDup fuels -> NoDup cats -> (forall f c, In (f, c) os_slots -> In f fuels /\ In c cats) ->
  os_simulate p ws r0 true = Ok (mres, r) -> os_simulate p ws r0 false = Ok (hres, r') -> totalEnergyUse fuels cats mres = totalEnergyUse fuels cats hres.
Proof.
  intros NF NC I H H'. unfold os_simulate in H, H'.
  destruct (simulate p ws r0 true) as [[mrows rm]| |] eqn:E; try discriminate H. destruct (simulate p ws r0 false) as [[hrows rh]| |] eqn:E'; try discriminate H'.
  cbn [obind] in H, H'. injection H as <- <-. injection H' as <- <-.
  destruct (simulate_det _ _ _ _ _ _ E) as (_ & _ & [_ S1] & _). destruct (simulate_det _ _ _ _ _ _ E') as (_ & _ & [_ S2] & _).
  rewrite !C110_total_l by assumption. rewrite (acc_columns 13 mrows S1), (acc_columns 13 hrows S2). f_equal. apply map_ext_in. intros k K. apply in_seq in K.
  exact (annual_totals p ws r0 mrows rm hrows rh E E' k _ _ (column_series 13 k mrows ltac:(lia) S1) (column_series 13 k hrows ltac:(lia) S2)).
Qed.
Lemma C110_monthly_l fuels cats (p : params_t xr) w res : NoDup fuels -> NoDup cats -> (forall f c, In (f, c) os_slots -> In f fuels /\ In c cats) ->
  os_monthly p w = Ok res -> exists rows, simulateMonthly p w = Ok rows /\ length res = length rows /\ totalEnergyUse fuels cats res = accumulate (concat rows).
Proof.
  intros NF NC I H. unfold os_monthly in H. destruct (simulateMonthly p w) as [rows| |] eqn:E; try discriminate H. cbn [obind] in H. injection H as <-.
  exists rows. split; [reflexivity|]. split; [apply map_length|]. apply C110_total_l; try assumption. exact (proj2 (monthly_shape _ _ _ E)).
Qed.
Lemma C110_hourly_l fuels cats (p : params_t xr) ws r0 agg res r : NoDup fuels -> NoDup cats -> (forall f c, In (f, c) os_slots -> In f fuels /\ In c cats) ->
  os_simulate p ws r0 agg = Ok (res, r) ->
  exists rows, simulate p ws r0 agg = Ok (rows, r) /\ length res = length rows /\ totalEnergyUse fuels cats res = accumulate (concat rows).
Proof.
  intros NF NC I H. unfold os_simulate in H. destruct (simulate p ws r0 agg) as [[rows r']| |] eqn:E; try discriminate H. cbn [obind] in H. injection H as <- <-.
  destruct (simulate_det _ _ _ _ _ _ E) as (_ & _ & [_ S1] & _).
  exists rows. split; [reflexivity|]. split; [apply map_length|]. apply C110_total_l; assumption.
Qed.

(** ** A case *)
Definition some_fuels : list fuel := [Electricity; Gas; FuelNo 0].
Definition some_categories : list category := [Heating; Cooling; InteriorLights; ExteriorLights; InteriorEquipment; ExteriorEquipment; Fans; Pumps; WaterSystems; CategoryNo 0].
Lemma C110_case_l : NoDup some_fuels /\ NoDup some_categories /\ (forall f c, In (f, c) os_slots -> In f some_fuels /\ In c some_categories) /\
  exists mres r hres r', os_simulate smallOffice windy_year no_ratios true = Ok (mres, r) /\ os_simulate smallOffice windy_year no_ratios false = Ok (hres, r').
Proof.
  split; [repeat constructor; cbn; intuition discriminate|]. split; [repeat constructor; cbn; intuition discriminate|].
  split. { intros f c H. cbn in H. repeat (destruct H as [H|H]; [injection H as <- <-; cbn; tauto|]). destruct H. }
  assert (R : forall agg, exists rows r, simulate smallOffice (@windy_year xr xr_num) no_ratios agg = Ok (rows, r)).
  { intros agg. destruct (simulate_total smallOffice (@windy_year xr xr_num) no_ratios agg) as (rows & r & E & _).
    - exact office_ints.
    - reflexivity.
    - unfold windy_year. rewrite repeat_length. lia.
    - intros w Hw. apply repeat_spec in Hw. subst w. reflexivity.
    - exists rows, r. exact E. }
  destruct (R true) as (mrows & r & E). destruct (R false) as (hrows & r' & E').
  exists (map os_row mrows), r, (map os_row hrows), r'. unfold os_simulate. rewrite E, E'. split; reflexivity.
Qed.
