(** What a user sees in the tables returned by HourlyModel::simulate. *)
From Coq Require Import Reals Lra ZArith List Bool Lia.
From Verif Require Import Base Num Xr M_TimeFrame M_Params M_Hourly S_Calendar S_Results
  L_Calendar L_HourlyShape L_Xr S_Edit.
Import ListNotations.

Lemma slot_series_is {T} k (rows : list (list T)) : forall v, slot_series k rows = map Some v -> is_series k rows v.
Proof.
  unfold is_series. induction rows as [|row rows IH]; intros [|x v] H; cbn in H; try discriminate H; constructor.
  - injection H as H _. exact H.
  - apply IH. injection H as _ H. exact H.
Qed.
Lemma is_series_slot {T} k (rows : list (list T)) v : is_series k rows v -> slot_series k rows = map Some v.
Proof. intros H. induction H as [|row x rows v Hx _ IH]; cbn; [reflexivity|]. rewrite Hx. f_equal. exact IH. Qed.
Lemma is_series_fun {T} k (rows : list (list T)) v v' : is_series k rows v -> is_series k rows v' -> v = v'.
Proof.
  intros H H'. apply is_series_slot in H, H'. rewrite H in H'. clear H.
  revert v' H'. induction v as [|x v IH]; intros [|y v'] H; try discriminate H; [reflexivity|].
  cbn in H. injection H as <- H. f_equal. exact (IH _ H).
Qed.

Section Gen.
Context {T : Type} {N : Num T}.
Implicit Types (p : params_t T) (ws : list (weather T)).

Lemma simulate_series p ws r0 raw r : simulateRaw p ws r0 = Ok (raw, r) ->
  exists hrows mrows,
    simulate p ws r0 false = Ok (hrows, r) /\ simulate p ws r0 true = Ok (mrows, r) /\
    table_shape (Z.to_nat 8760) hrows /\ table_shape 12 mrows /\
    (forall k v, nth_error (resultVectors p raw) k = Some v ->
       is_series k hrows v /\ is_series k mrows (map (fun m => accumulate (month_part m v)) (zrange 1 12))).
Proof.
  intros H. destruct (simulate_both _ _ _ _ _ H) as (h & m & E1 & E2 & L1 & L2 & S1 & S2 & C).
  exists h, m. split; [exact E1|]. split; [exact E2|].
  split; [split; [lia|apply Forall_forall; exact S1]|]. split; [split; [exact L2|apply Forall_forall; exact S2]|].
  intros k v Hv. destruct (C k v Hv) as [C1 C2]. split; apply slot_series_is; [exact C1|].
  rewrite C2, map_map. reflexivity.
Qed.

Lemma simulate_det p ws r0 agg rows r : simulate p ws r0 agg = Ok (rows, r) ->
  exists raw, simulateRaw p ws r0 = Ok (raw, r) /\ table_shape (if agg then 12 else Z.to_nat 8760) rows /\
    forall k v, nth_error (resultVectors p raw) k = Some v ->
      is_series k rows (if agg then map (fun m => accumulate (month_part m v)) (zrange 1 12) else v).
Proof.
  intros H. destruct (simulate_raw _ _ _ _ _ _ H) as (raw & Hraw). exists raw. split; [exact Hraw|].
  destruct (simulate_series _ _ _ _ _ Hraw) as (h & m & E1 & E2 & S1 & S2 & C).
  destruct agg; [rewrite E2 in H|rewrite E1 in H]; injection H as <-.
  - split; [exact S2|]. intros k v Hv. apply C, Hv.
  - split; [exact S1|]. intros k v Hv. apply C, Hv.
Qed.

(** C02 *)
Lemma monthly_from_hourly p ws r0 mrows r : simulate p ws r0 true = Ok (mrows, r) ->
  exists hrows, simulate p ws r0 false = Ok (hrows, r) /\
    forall k, (k < 13)%nat -> exists v, is_series k hrows v /\ length v = Z.to_nat 8760 /\
      concat (map (fun m => month_part m v) (zrange 1 12)) = v /\
      is_series k mrows (map (fun m => accumulate (month_part m v)) (zrange 1 12)).
Proof.
  intros H. destruct (simulate_raw _ _ _ _ _ _ H) as (raw & Hraw).
  destruct (simulate_series _ _ _ _ _ Hraw) as (h & m & E1 & E2 & S1 & S2 & C).
  rewrite E2 in H. injection H as <-. exists h. split; [exact E1|]. intros k Hk.
  destruct (nth_error (resultVectors p raw) k) as [v|] eqn:Ev.
  - destruct (C k v Ev) as [C1 C2]. exists v. split; [exact C1|].
    destruct (resultVectors_shape p raw) as [_ HL]. specialize (HL v (nth_error_In _ _ Ev)).
    pose proof (simulateRaw_length _ _ _ _ _ Hraw) as HR.
    split; [lia|]. split; [apply month_parts_concat; lia|exact C2].
  - apply nth_error_None in Ev. rewrite (proj1 (resultVectors_shape p raw)) in Ev. lia.
Qed.

(** C18 *)
Lemma simulate_total p ws r0 agg : ints_ok (pa_population p) -> structure_nine (pa_structure p) = true ->
  (8760 <= Z.of_nat (length ws))%Z -> (forall w, In w ws -> nine (we_sol w) = true) ->
  exists rows r, simulate p ws r0 agg = Ok (rows, r) /\ table_shape (if agg then 12 else Z.to_nat 8760) rows.
Proof.
  intros H1 H2 H3 H4. destruct (simulateRaw_ok p ws r0 H1 H2 H3 H4) as (raw & r & E).
  destruct (simulate_series _ _ _ _ _ E) as (h & m & E1 & E2 & S1 & S2 & C).
  destruct agg; [exists m, r|exists h, r]; split; assumption.
Qed.

(** ** Causality (C17) *)
Definition causal_slots : list nat :=
  [elec_int_lights; elec_ext_lights; elec_fans; elec_pumps; elec_int_equip; elec_ext_equip; elec_dhw].

Lemma firstn_map_eq {A B} (f : A -> B) n l l' : firstn n l = firstn n l' -> firstn n (map f l) = firstn n (map f l').
Proof. intros H. rewrite !firstn_map, H. reflexivity. Qed.

Lemma causal_vectors p raw raw' n k v v' : firstn n raw = firstn n raw' -> In k causal_slots ->
  nth_error (resultVectors p raw) k = Some v -> nth_error (resultVectors p raw') k = Some v' -> firstn n v = firstn n v'.
Proof.
  intros H Hk. unfold causal_slots in Hk. cbn [In] in Hk. unfold resultVectors. cbn [map].
  repeat (destruct Hk as [<-|Hk]; [cbn; intros [= <-] [= <-]; do 2 apply firstn_map_eq; exact H|]). contradiction.
Qed.

Lemma simulate_causal p ws ws' r0 n rows rows' r r' :
  firstn n ws = firstn n ws' ->
  simulate p ws r0 false = Ok (rows, r) -> simulate p ws' r0 false = Ok (rows', r') ->
  r = r' /\ forall k, In k causal_slots -> exists v v',
    is_series k rows v /\ is_series k rows' v' /\ firstn n v = firstn n v'.
Proof.
  intros Hp H H'. destruct (simulate_det _ _ _ _ _ _ H) as (raw & Hr & _ & C).
  destruct (simulate_det _ _ _ _ _ _ H') as (raw' & Hr' & _ & C').
  destruct (simulateRaw_causal _ _ _ _ _ _ _ _ _ Hp Hr Hr') as [Hraw Er]. split; [exact Er|].
  intros k Hk.
  assert (Hlt : (k < 13)%nat).
  { unfold causal_slots in Hk. cbn [In] in Hk. repeat (destruct Hk as [<-|Hk]; [cbv; lia|]). contradiction. }
  destruct (nth_error (resultVectors p raw) k) as [v|] eqn:Ev.
  2:{ apply nth_error_None in Ev. rewrite (proj1 (resultVectors_shape p raw)) in Ev. lia. }
  destruct (nth_error (resultVectors p raw') k) as [v'|] eqn:Ev'.
  2:{ apply nth_error_None in Ev'. rewrite (proj1 (resultVectors_shape p raw')) in Ev'. lia. }
  exists v, v'. split; [exact (C k v Ev)|]. split; [exact (C' k v' Ev')|].
  exact (causal_vectors p _ _ n k v v' Hraw Hk Ev Ev').
Qed.

(** ** The heating carrier only routes (C13) *)
Lemma calculateHour_energyType p e i sc w th : calculateHour (with_energyType p e) i sc w th = calculateHour p i sc w th.
Proof. destruct p as [? [] ? ? ? ? ? ? ? ?]. reflexivity. Qed.
Lemma yearLoop_energyType p e i tbl frame : forall ws th,
  yearLoop (with_energyType p e) i tbl frame ws th = yearLoop p i tbl frame ws th.
Proof.
  induction frame as [|[c|] frame IH]; intros ws th; cbn [yearLoop]; [reflexivity| |reflexivity].
  destruct ws as [|w ws]; [reflexivity|]. destruct (nine (we_sol w)); cbn [negb]; [|reflexivity].
  destruct (sched_at tbl (tc_hour c) (tc_dow c)) as [sc| |]; cbn [obind]; [|reflexivity|reflexivity].
  rewrite calculateHour_energyType. destruct (calculateHour p i sc w th) as [r th']. rewrite IH. reflexivity.
Qed.
Lemma simulateRaw_energyType p e ws r0 : simulateRaw (with_energyType p e) ws r0 = simulateRaw p ws r0.
Proof.
  unfold simulateRaw.
  replace (populateSchedules (with_energyType p e)) with (populateSchedules p) by (destruct p as [? [] ? ? ? ? ? ? ? ?]; reflexivity).
  replace (initialize (with_energyType p e) r0) with (initialize p r0) by (destruct p as [? [] ? ? ? ? ? ? ? ?]; reflexivity).
  destruct (populateSchedules p) as [tbl| |]; cbn [obind]; [|reflexivity|reflexivity].
  destruct (initialize p r0) as [i| |]; cbn [obind]; [|reflexivity|reflexivity].
  destruct timeFrame as [fr| |]; cbn [obind]; [|reflexivity|reflexivity].
  rewrite yearLoop_energyType. reflexivity.
Qed.
End Gen.

(** Zero series over the extended reals. *)
Lemma zero_entry : ((zn 0 : xr) / zn 1000)%num = Fin 0.
Proof. cbv [zn]. cbn. unfold Rlit. destruct (Req_EM_T (1000 / 1)%R 0%R); [lra|]. f_equal. lra. Qed.
Lemma acc_zero (l : list xr) : Forall (eq (Fin 0)) l -> accumulate l = Fin 0.
Proof.
  intros H. unfold accumulate. assert (E : (zn 0 : xr) = Fin 0) by (rewrite zn_fin; f_equal; cbv [zn]; cbn; unfold Rlit; lra).
  rewrite E. induction H as [|x l <- _ IH]; [reflexivity|]. cbn [fold_left]. replace (nadd (Fin 0) (Fin 0)) with (Fin 0); [exact IH|].
  cbn. f_equal. lra.
Qed.
Lemma month_part_Forall {A} (P : A -> Prop) m (l : list A) : Forall P l -> Forall P (month_part m l).
Proof.
  intros H. unfold month_part. rewrite Forall_forall in *. intros x Hx. apply H.
  apply in_map_iff in Hx as ((k & y) & <- & Hk). apply filter_In in Hk as [Hk _]. apply in_combine_r in Hk. exact Hk.
Qed.

Lemma raw_dhw {T} {N : Num T} (p : params_t T) ws r0 raw r : simulateRaw p ws r0 = Ok (raw, r) ->
  forall h, In h raw -> hr_dhw h = zn 0.
Proof.
  unfold simulateRaw. intros H h Hh.
  apply obind_ok in H as (tbl & _ & H). apply obind_ok in H as (i & _ & H).
  apply obind_ok in H as (fr & _ & H). apply obind_ok in H as (rw & Hr & H). injection H as <- <-.
  apply In_nth_error in Hh as (k & Hk).
  destruct (yearLoop_nth _ _ _ _ _ _ _ Hr k h Hk) as (c & w & sc & th & _ & _ & _ & _ & ->). reflexivity.
Qed.

Definition zero_slots : list nat := [elec_dhw; gas_cooling; gas_equip; gas_dhw].

Lemma zeros_of (agg : bool) (v : list xr) : Forall (eq (Fin 0)) v ->
  Forall (eq (Fin 0)) (if agg then map (fun m => accumulate (month_part m v)) (zrange 1 12) else v).
Proof.
  intros H. destruct agg; [|exact H]. apply Forall_forall. intros x Hx. apply in_map_iff in Hx as (m & <- & _).
  symmetry. apply acc_zero, month_part_Forall, H.
Qed.
Lemma Forall_map_all {A B} (P : B -> Prop) (f : A -> B) l : (forall a, P (f a)) -> Forall P (map f l).
Proof. intros H. apply Forall_forall. intros x Hx. apply in_map_iff in Hx as (a & <- & _). apply H. Qed.

Lemma is_series_zero k (rows : list (list xr)) v : is_series k rows v -> Forall (eq (Fin 0)) v ->
  forall row, In row rows -> nth_error row k = Some (Fin 0).
Proof.
  intros H. induction H as [|row x rows v Hx _ IH]; intros HZ row' Hr; [destruct Hr|].
  apply Forall_cons_iff in HZ as [<- HZ]. destruct Hr as [<-|Hr]; [exact Hx|exact (IH HZ row' Hr)].
Qed.

Lemma zero_slots_zero (p : params_t xr) ws r0 agg rows r : simulate p ws r0 agg = Ok (rows, r) ->
  forall row k, In row rows -> In k zero_slots -> nth_error row k = Some (Fin 0).
Proof.
  intros H row k Hrow Hk. destruct (simulate_det _ _ _ _ _ _ H) as (raw & Hr & _ & C).
  assert (Z : exists v, nth_error (resultVectors p raw) k = Some v /\ Forall (eq (Fin 0)) v).
  { unfold zero_slots in Hk. cbn [In] in Hk.
    assert (Hdhw : True -> Forall (eq (Fin 0)) (map (fun watts : xr => watts / zn 1000)%num (map (fun _ : hourres xr => zn 0) raw))).
    { intros _. rewrite map_map. apply Forall_map_all. intros _. symmetry. apply zero_entry. }
    destruct Hk as [<-|[<-|[<-|[<-|[]]]]]; eexists; (split; [reflexivity|]); try (apply Hdhw; exact I).
    (* Eelec_dhw: hr_dhw of every hour is 0 *)
    rewrite map_map. apply Forall_forall. intros x Hx. apply in_map_iff in Hx as (h & <- & Hh).
    rewrite (raw_dhw _ _ _ _ _ Hr h Hh). symmetry. apply zero_entry. }
  destruct Z as (v & Ev & Hv). exact (is_series_zero _ _ _ (C k v Ev) (zeros_of agg v Hv) row Hrow).
Qed.

(** The same building with an electric and with another heating plant. *)
Lemma carrier_routing (p : params_t xr) (electric other : xr) ws r0 agg rows rows' r r' :
  neqb electric (Fin 1) = true -> neqb other (Fin 1) = false ->
  simulate (with_energyType p electric) ws r0 agg = Ok (rows, r) ->
  simulate (with_energyType p other) ws r0 agg = Ok (rows', r') ->
  (forall k, ~ In k [elec_heating; gas_heating] -> forall v, is_series k rows v -> is_series k rows' v) /\
  (exists heat, is_series elec_heating rows heat /\ is_series gas_heating rows' heat) /\
  (forall row, In row rows -> nth_error row gas_heating = Some (Fin 0)) /\
  (forall row, In row rows' -> nth_error row elec_heating = Some (Fin 0)).
Proof.
  intros He Ho H H'.
  assert (E1 : (zn 1 : xr) = Fin 1) by (rewrite zn_fin; f_equal; cbv [zn]; cbn; unfold Rlit; lra).
  destruct (simulate_det _ _ _ _ _ _ H) as (raw & Hr & [HLr HF] & C). destruct (simulate_det _ _ _ _ _ _ H') as (raw' & Hr' & [HLr' _] & C').
  rewrite simulateRaw_energyType in Hr, Hr'. rewrite Hr in Hr'. injection Hr' as <- <-.
  assert (RV : forall e k, ~ In k [elec_heating; gas_heating] ->
     nth_error (resultVectors (with_energyType p e) raw) k = nth_error (resultVectors p raw) k).
  { intros e k Hk. destruct p as [? [] ? ? ? ? ? ? ? ?]. unfold resultVectors. cbn [map].
    do 13 (destruct k as [|k]; [try reflexivity; exfalso; apply Hk; cbv; tauto|]). reflexivity. }
  split; [|split; [|split]].
  - intros k Hk v Hv. destruct (nth_error (resultVectors p raw) k) as [u|] eqn:Eu.
    + specialize (C k u). rewrite (RV _ _ Hk) in C. specialize (C' k u). rewrite (RV _ _ Hk) in C'.
      rewrite (is_series_fun _ _ _ _ Hv (C Eu)). exact (C' Eu).
    + exfalso. apply nth_error_None in Eu. rewrite (proj1 (resultVectors_shape p raw)) in Eu.
      destruct rows as [|row rows]; [destruct agg; cbn [length] in HLr; lia|].
      inversion Hv as [|? x ? ? Hx]; subst. apply Forall_cons_iff in HF as [HF _].
      assert (Hn : nth_error row k <> None) by (rewrite Hx; discriminate).
      apply nth_error_Some in Hn. lia.
  - eexists. split.
    + apply C. unfold resultVectors. cbn [map nth_error elec_heating].
      replace (ht_energyType (pa_heating (with_energyType p electric))) with electric by (destruct p as [? [] ? ? ? ? ? ? ? ?]; reflexivity).
      rewrite E1, He. reflexivity.
    + match goal with |- is_series _ _ (if agg then map _ (zrange 1 12) else ?v) => specialize (C' gas_heating v); apply C' end.
      unfold resultVectors. cbn [map nth_error gas_heating].
      replace (ht_energyType (pa_heating (with_energyType p other))) with other by (destruct p as [? [] ? ? ? ? ? ? ? ?]; reflexivity).
      rewrite E1, Ho. destruct p as [? [] ? ? ? ? ? ? ? ?]. reflexivity.
  - assert (Hz : Forall (eq (Fin 0)) (map (fun watts : xr => watts / zn 1000)%num (map (fun _ : hourres xr => zn 0) raw))).
    { rewrite map_map. apply Forall_map_all. intros _. symmetry. apply zero_entry. }
    eapply is_series_zero; [apply C|apply (zeros_of agg), Hz].
    unfold resultVectors. cbn [map nth_error gas_heating].
    replace (ht_energyType (pa_heating (with_energyType p electric))) with electric by (destruct p as [? [] ? ? ? ? ? ? ? ?]; reflexivity).
    rewrite E1, He. reflexivity.
  - assert (Hz : Forall (eq (Fin 0)) (map (fun watts : xr => watts / zn 1000)%num (map (fun _ : hourres xr => zn 0) raw))).
    { rewrite map_map. apply Forall_map_all. intros _. symmetry. apply zero_entry. }
    eapply is_series_zero; [apply C'|apply (zeros_of agg), Hz].
    unfold resultVectors. cbn [map nth_error elec_heating].
    replace (ht_energyType (pa_heating (with_energyType p other))) with other by (destruct p as [? [] ? ? ? ? ? ? ? ?]; reflexivity).
    rewrite E1, Ho. reflexivity.
Qed.

(** ** Annual totals over the extended reals (C02) *)
Lemma xadd_assoc a b c : xadd a (xadd b c) = xadd (xadd a b) c.
Proof. destruct a, b, c; cbn; try reflexivity. f_equal. lra. Qed.
Lemma xadd_0_l a : xadd (Fin 0) a = a.
Proof. destruct a; cbn; try reflexivity. f_equal. lra. Qed.
Lemma xzero : (zn 0 : xr) = Fin 0.
Proof. rewrite zn_fin. f_equal. cbv [zn]. cbn. unfold Rlit. lra. Qed.
Lemma xfold_acc (l : list xr) : forall a, fold_left nadd l a = xadd a (accumulate l).
Proof.
  induction l as [|x l IH]; intros a.
  - unfold accumulate. cbn [fold_left]. rewrite xzero. destruct a; cbn; try reflexivity. f_equal. lra.
  - cbn [fold_left]. rewrite IH. unfold accumulate at 2. cbn [fold_left]. rewrite IH. rewrite xzero.
    cbn [nadd xr_num]. rewrite xadd_0_l. symmetry. apply xadd_assoc.
Qed.
Lemma accumulate_app (l m : list xr) : accumulate (l ++ m) = xadd (accumulate l) (accumulate m).
Proof. unfold accumulate at 1. rewrite fold_left_app, xfold_acc. reflexivity. Qed.
Lemma accumulate_concat (ls : list (list xr)) : accumulate (map accumulate ls) = accumulate (concat ls).
Proof.
  induction ls as [|l ls IH]; [reflexivity|]. cbn [map concat]. rewrite accumulate_app, <- IH.
  change (accumulate l :: map accumulate ls) with ([accumulate l] ++ map accumulate ls).
  rewrite accumulate_app. f_equal. unfold accumulate at 1. cbn [fold_left]. rewrite xzero. apply xadd_0_l.
Qed.
Lemma annual_totals (p : params_t xr) ws r0 mrows r hrows r' :
  simulate p ws r0 true = Ok (mrows, r) -> simulate p ws r0 false = Ok (hrows, r') ->
  forall k vm vh, is_series k mrows vm -> is_series k hrows vh -> accumulate vm = accumulate vh.
Proof.
  intros H H' k vm vh Hm Hh.
  destruct (monthly_from_hourly _ _ _ _ _ H) as (hrows' & E & C). rewrite E in H'. injection H' as -> ->.
  destruct (simulate_det _ _ _ _ _ _ H) as (_ & _ & [HL HF] & _).
  assert (Hk : (k < 13)%nat).
  { destruct mrows as [|row mrows]; [discriminate HL|]. inversion Hm as [|? x ? ? Hx]; subst.
    apply Forall_cons_iff in HF as [HF _]. assert (Hn : nth_error row k <> None) by (rewrite Hx; discriminate).
    apply nth_error_Some in Hn. lia. }
  destruct (C k Hk) as (v & Hv & _ & Hc & Hmv).
  rewrite (is_series_fun _ _ _ _ Hm Hmv), (is_series_fun _ _ _ _ Hh Hv).
  transitivity (accumulate (concat (map (fun m => month_part m v) (zrange 1 12)))); [|rewrite Hc; reflexivity].
  rewrite <- accumulate_concat, map_map. reflexivity.
Qed.
