(** Lemmas about loading a building: rejection, compass directions. *)
From Coq Require Import Ascii String.
From Verif Require Import Base Num Text M_Text M_Properties M_Params M_UserModel S_Text S_Loading L_Text L_Properties L_UserModel L_Loading L_Loading2.
From Verif Require Import L_HourlyShape.
Open Scope list_scope.

Section Load.
Context {T : Type} {N : Num T}.
Notation init := (@initializeParameter T).
Notation bs := (@all_bindings T N).

Lemma ofold_each : forall rd m l (u u' : building_model T) b, ofold (init rd m) l u = Ok u' -> In b l ->
  exists u1 u2, init rd m u1 b = Ok u2.
Proof.
  intros rd m. induction l as [|c l IH]; intros u u' b E I; [destruct I|].
  cbn [ofold] in E. destruct (obind_ok _ _ _ E) as (u1&E1&E2). destruct I as [->|I]; eauto.
Qed.
Lemma ofold_no_ub : forall rd m l, (forall b v, In b l -> init rd m v b <> UB) -> forall u, ofold (init rd m) l u <> UB.
Proof.
  intros rd m. induction l as [|c l IH]; intros H u; cbn [ofold]; [discriminate|].
  destruct (init rd m u c) as [v|e|] eqn:E; cbn; [|discriminate|exfalso; exact (H c u (or_introl eq_refl) E)].
  apply IH. intros b w I. apply H. right. exact I.
Qed.
Definition is_vec (b : binding T) : bool := match b with BVec _ _ _ => true | _ => false end.
Lemma parameters_no_vec : forallb (fun b => negb (is_vec b)) (@parameter_bindings T N) = true.
Proof. reflexivity. Qed.
Lemma structure_all_vec : forallb is_vec (@structure_bindings T) = true.
Proof. reflexivity. Qed.
Lemma words_no_ub : forall s (u : building_model T),
  set_HeatingEnergyCarrier s u <> UB /\ set_DhwEnergyCarrier s u <> UB /\ set_VentilationType s u <> UB /\ set_BemType s u <> UB.
Proof.
  intros s u. unfold set_BemType, set_HeatingEnergyCarrier, set_DhwEnergyCarrier, set_VentilationType. cbv zeta.
  repeat split; repeat match goal with |- (if ?c then _ else _) <> _ => destruct c end; discriminate.
Qed.
Lemma text_bindings : forall k r set, In (BText k r set) bs ->
  set = set_HeatingEnergyCarrier \/ set = set_DhwEnergyCarrier \/ set = set_VentilationType \/ set = set_BemType \/ set = set_WeatherFilePath.
Proof.
  intros k r set I. assert (J : In (BText k r set) others) by (apply filter_In; split; [exact I|reflexivity]).
  unfold others in J. cbn in J.
  repeat (destruct J as [J|J]; [try discriminate J; injection J as _ _ <-; tauto|]). destruct J.
Qed.
Lemma parameters_no_ub : forall rd m (u : building_model T), initializeParameters rd m u <> UB.
Proof.
  intros rd m. apply ofold_no_ub. intros b v I.
  assert (J : In b bs) by (apply in_or_app; left; exact I).
  pose proof (proj1 (forallb_forall _ _) parameters_no_vec b I) as Q.
  destruct b as [k r f|k r s|k r s|k r f|k r set]; [..|discriminate|]; unfold initializeParameter.
  - unfold getPropertyAsDouble. destruct (getProperty m k) as [t|]; [destruct (rd_stod rd t)|]; cbn; try discriminate; destruct r; discriminate.
  - unfold getPropertyAsInt. destruct (getProperty m k) as [t|]; [destruct (rd_stoi rd t)|]; cbn; try discriminate; destruct r; discriminate.
  - destruct (getPropertyAsBool m k); [discriminate|destruct r; discriminate].
  - destruct (getProperty m k) as [t|]; [|destruct r; discriminate].
    destruct (words_no_ub t v) as (W1&W2&W3&W4).
    destruct (text_bindings _ _ _ J) as [->|[->|[->|[->| ->]]]]; try assumption. discriminate.
Qed.

Lemma rejected : forall rd file m (u : building_model T) b, propertiesOf file = Ok m -> In b bs -> is_vec b = false ->
  (forall v v', init rd m v b <> Ok v') -> exists e, loadBuilding rd file u = Throw e.
Proof.
  intros rd file m u b E I V H. unfold loadBuilding. rewrite E. unfold obind at 1.
  assert (P : In b parameter_bindings).
  { apply in_app_or in I. destruct I as [I|I]; [exact I|].
    rewrite (proj1 (forallb_forall _ _) structure_all_vec b I) in V. discriminate. }
  destruct (initializeParameters rd m u) as [v|e|] eqn:Q.
  - exfalso. destruct (ofold_each rd m _ _ _ _ Q P) as (u1&u2&C). exact (H _ _ C).
  - exists e. reflexivity.
  - exfalso. exact (parameters_no_ub rd m u Q).
Qed.

Lemma C48_rejected_l : forall rd file m (u : building_model T), propertiesOf file = Ok m ->
  (exists k p, In (k, p) (@required_numbers T) /\ (getProperty m (tx k) = None \/ exists s, getProperty m (tx k) = Some s /\ rd_stod rd s = NoConversion)) \/
  (exists k p, In (k, p) (@required_numbers T ++ optional_numbers) /\ exists s, getProperty m (tx k) = Some s /\ rd_stod rd s = RangeError) \/
  (exists k p words, In (k, p, words) (@required_words T) /\
     (getProperty m (tx k) = None \/ exists s, getProperty m (tx k) = Some s /\ forall w code, In (w, code) words -> ~ same_word s (tx w))) \/
  getProperty m (tx "weatherfilepath") = None ->
  exists e, loadBuilding rd file u = Throw e.
Proof.
  intros rd file m u E [(k&p&I&H)|[(k&p&I&s&H1&H2)|[(k&p&words&I&H)|H]]].
  - destruct (required_numbers_bound k p I) as (f&B&_). apply (rejected rd file m u _ E B eq_refl).
    intros v v'. unfold initializeParameter, getPropertyAsDouble. destruct H as [->|(s&->&->)]; discriminate.
  - apply in_app_or in I. destruct I as [I|I].
    + destruct (required_numbers_bound k p I) as (f&B&_). apply (rejected rd file m u _ E B eq_refl).
      intros v v'. unfold initializeParameter, getPropertyAsDouble. rewrite H1, H2. discriminate.
    + destruct (optional_numbers_bound k p I) as (f&B&_). apply (rejected rd file m u _ E B eq_refl).
      intros v v'. unfold initializeParameter, getPropertyAsDouble. rewrite H1, H2. discriminate.
  - destruct (words_bound k p words I) as (set&B&(_&_&W)&_). apply (rejected rd file m u _ E B eq_refl).
    intros v v'. unfold initializeParameter. destruct H as [->|(s&->&H)]; [discriminate|]. rewrite (W s v H). discriminate.
  - assert (B : In (BText (tx "weatherfilepath") true set_WeatherFilePath) bs)
      by (apply (find_binding_in (tx "weatherfilepath")); vm_compute; reflexivity).
    apply (rejected rd file m u _ E B eq_refl). intros v v'. unfold initializeParameter. rewrite H. discriminate.
Qed.

(** Compass directions. *)
Lemma C49_directions_l : forall rd file m (u u' : building_model T) k p fs d f,
  propertiesOf file = Ok m -> loadBuilding rd file u = Ok u' ->
  In (k, p) required_vectors -> Forall plain fs -> getProperty m (tx k) = Some (joined ","%char fs) -> joined ","%char fs <> [] ->
  nth_error fs (file_position d) = Some f ->
  exists x, rd_stod rd f = Value x /\ nth_error (p u') (accessor_index d) = Some x.
Proof.
  intros rd file m u u' k p fs d f E L I PL G NE NT.
  apply C48_one_file_l in L. destruct L as (m'&E'&L). assert (m' = m) as -> by congruence.
  destruct L as (_&_&_&_&_&V&_). destruct (V k p I) as (xs&X1&(X2&X3&X4)).
  apply (proj1 (C57_vector_l _ rd m (tx k) fs xs PL NE G)) in X1.
  rewrite X4. clear -X1 NT. revert NT. generalize (file_position d). induction X1 as [|a x fs xs A X1 IH]; intros n NT.
  - destruct n; discriminate.
  - destruct n as [|n]; [cbn in NT; injection NT as <-; eauto|]. apply IH. exact NT.
Qed.

Lemma C49_involution_l : forall A (xs : list A), List.length xs = 9%nat ->
  exists ys, northToSouth xs = Ok ys /\ northToSouth ys = Ok xs.
Proof.
  intros A xs L. do 9 (destruct xs as [|? xs]; [discriminate|]). destruct xs; [|discriminate].
  eexists. split; reflexivity.
Qed.

Lemma northToSouth_length : forall A (xs : list A), (8 <= List.length xs)%nat -> exists ys, northToSouth xs = Ok ys /\ List.length ys = List.length xs.
Proof.
  intros A xs L. do 8 (destruct xs as [|? xs]; [cbn in L; lia|]). eexists. split; reflexivity.
Qed.
Lemma northToSouth_short : forall A (xs : list A), (List.length xs < 8)%nat -> northToSouth xs = UB.
Proof.
  intros A xs L. do 8 (destruct xs as [|? xs]; [reflexivity|]). cbn in L. lia.
Qed.

(** Setting a vector: nine elements or an error. *)
Lemma vector_length : forall rd m (u : building_model T) k f xs, getPropertyAsDoubleVector rd m k = Ok (Some xs) ->
  init rd m u (BVec k true f) =
    if (List.length xs <? 8)%nat then UB
    else if (List.length xs =? 9)%nat then (do y <- northToSouth xs; Ok (put_structure u (put_vec f y (pa_structure (bm_params u)))))
    else Throw InvalidArgument.
Proof.
  intros rd m u k f xs E. unfold initializeParameter. rewrite E. cbn [obind].
  destruct (List.length xs <? 8)%nat eqn:Q.
  - apply Nat.ltb_lt in Q. rewrite (northToSouth_short _ xs Q). reflexivity.
  - apply Nat.ltb_ge in Q. destruct (northToSouth_length _ xs Q) as (ys&->&L). cbn [obind]. unfold set_vec. rewrite L.
    reflexivity.
Qed.

Lemma C49_nine_l : forall rd file m (u u' : building_model T) k (p : building_model T -> list T) xs,
  propertiesOf file = Ok m -> In (k, p) required_vectors -> getPropertyAsDoubleVector rd m (tx k) = Ok (Some xs) ->
  List.length xs <> 9%nat -> loadBuilding rd file u <> Ok u'.
Proof.
  intros rd file m u u' k p xs E I V L C. apply C48_one_file_l in C. destruct C as (m'&E'&C).
  assert (m' = m) as -> by congruence. destruct C as (_&_&_&_&_&C&_). destruct (C k p I) as (ys&Y1&(Y2&_)). congruence.
Qed.

Lemma csv_no_ub : forall s tok inq esc open, csv_scan s tok inq esc open <> UB.
Proof.
  induction s as [|c s IH]; intros tok inq esc open; cbn; [destruct esc; discriminate|].
  repeat match goal with |- (if ?c then _ else _) <> _ => destruct c end; try apply IH; try discriminate.
  specialize (IH [] false false true). destruct (csv_scan s [] false false true); cbn; try discriminate. exact IH.
Qed.
Lemma stod_no_ub : forall rd l, @stod_all T rd l <> UB.
Proof.
  intros rd. induction l as [|s l IH]; cbn; [discriminate|]. destruct (rd_stod rd s); try discriminate.
  destruct (stod_all rd l); cbn; try discriminate. contradiction.
Qed.
Lemma vector_no_ub : forall rd m k, @getPropertyAsDoubleVector T rd m k <> UB.
Proof.
  intros rd m k. unfold getPropertyAsDoubleVector. destruct (getProperty m k) as [s|]; [|discriminate].
  pose proof (csv_no_ub s [] false false false) as C. unfold csv_tokens.
  destruct (csv_scan s [] false false false); cbn; try discriminate; [apply stod_no_ub|contradiction].
Qed.

Lemma properties_no_ub : forall file, propertiesOf file <> UB.
Proof.
  intros [s|]; [|discriminate]. unfold propertiesOf, readFile. generalize (getlines [] s) as ls, empty_props.
  induction ls as [|l ls IH]; intros m; cbn; [discriminate|].
  assert (Q : readLine m l <> UB).
  { unfold readLine. repeat match goal with |- (match ?c with _ => _ end) <> _ => destruct c | |- (let x := _ in _) <> _ => cbv zeta end; discriminate. }
  destruct (readLine m l) as [m'|e|]; cbn; [apply IH|discriminate|contradiction].
Qed.

Lemma C49_defined_l : forall rd file (u : building_model T),
  (forall m k (p : building_model T -> list T) xs, propertiesOf file = Ok m -> In (k, p) required_vectors -> getPropertyAsDoubleVector rd m (tx k) = Ok (Some xs) ->
     (8 <= List.length xs)%nat) -> loadBuilding rd file u <> UB.
Proof.
  intros rd file u H. unfold loadBuilding. destruct (propertiesOf file) as [m|e|] eqn:E; [|discriminate|exfalso; exact (properties_no_ub file E)].
  unfold obind at 1. destruct (initializeParameters rd m u) as [v|e|] eqn:Q; [|discriminate|exfalso; exact (parameters_no_ub rd m u Q)].
  unfold obind at 1. apply ofold_no_ub. intros b w I.
  pose proof (proj1 (forallb_forall _ _) structure_all_vec b I) as V.
  assert (J : In b bs) by (apply in_or_app; right; exact I).
  destruct b as [k r f|k r s|k r s|k r f|k r set]; try discriminate V.
  pose proof (proj1 (Forall_forall _ _) all_in_table _ J) as TB. destruct TB as (s&p&->&TB).
  assert (R : r = true).
  { unfold structure_bindings in I. repeat (destruct I as [I|I]; [injection I as _ <- _; reflexivity|]). destruct I. }
  subst r. destruct (getPropertyAsDoubleVector rd m (tx s)) as [[xs|]|e|] eqn:G.
  - rewrite (vector_length rd m w (tx s) f xs G). pose proof (H m s p xs eq_refl TB G) as L.
    rewrite (proj2 (Nat.ltb_ge _ _) L). destruct (List.length xs =? 9)%nat; [|discriminate].
    destruct (northToSouth_length _ xs L) as (ys&->&_). discriminate.
  - unfold initializeParameter. rewrite G. discriminate.
  - unfold initializeParameter. rewrite G. discriminate.
  - exfalso. exact (vector_no_ub rd m _ G).
Qed.

Lemma C55_words_l : forall (s : text) (u : building_model T),
  let accepts (set : text -> building_model T -> outcome (building_model T)) (field : building_model T -> T) (words : list (string * Z)) :=
    (forall w code, In (w, code) words -> same_word s (tx w) -> exists u', set s u = Ok u' /\ field u' = zn code) /\
    ((forall w code, In (w, code) words -> ~ same_word s (tx w)) -> set s u = Throw InvalidArgument) in
  accepts set_HeatingEnergyCarrier (fun u => ht_energyType (pa_heating (bm_params u))) [("electric", 1); ("gas", 2)]%Z%string /\
  accepts set_DhwEnergyCarrier (fun u => ht_hotWaterEnergyType (pa_heating (bm_params u))) [("electric", 1); ("gas", 2)]%Z%string /\
  accepts set_VentilationType (fun u => ve_type (pa_ventilation (bm_params u))) [("mechanical", 1); ("combined", 2); ("natural", 3)]%Z%string /\
  accepts set_BemType (fun u => bu_bem (pa_building (bm_params u))) [("none", 1); ("simple", 2); ("advanced", 3)]%Z%string.
Proof.
  intros s u accepts. unfold accepts.
  destruct heating_words as (_&A1&A2). destruct dhw_words as (_&B1&B2).
  destruct ventilation_words as (_&C1&C2). destruct bem_words as (_&D1&D2).
  repeat split; [exact (A1 s u)|exact (A2 s u)|exact (B1 s u)|exact (B2 s u)|exact (C1 s u)|exact (C2 s u)|exact (D1 s u)|exact (D2 s u)].
Qed.

Lemma unchanged_intro : forall key (u u' : building_model T),
  (forall f, get_num f u' = get_num f u) ->
  (forall k p, In (k, p) optional_flags -> p u' = p u) ->
  (forall k p words, In (k, p, words) required_words -> k <> key -> p u' = p u) ->
  (forall k (p : building_model T -> list T), In (k, p) required_vectors -> p u' = p u) ->
  ve_vent_rate_flag (pa_ventilation (bm_params u')) = ve_vent_rate_flag (pa_ventilation (bm_params u)) ->
  bm_weatherFilePath u' = bm_weatherFilePath u -> unchanged_except key u u'.
Proof.
  intros key u u' H1 H2 H3 H4 H5 H6. repeat split.
  - intros k p I _. apply in_app_or in I. destruct I as [I|I].
    + destruct (required_numbers_bound k p I) as (f&_&P). rewrite !P. apply H1.
    + destruct (optional_numbers_bound k p I) as (f&_&P). rewrite !P. apply H1.
  - intros k p I _. exact (H2 k p I).
  - exact H3.
  - intros k p I _. exact (H4 k p I).
  - intros _. exact H5.
  - intros _. exact H6.
Qed.
Ltac table H := repeat (destruct H as [H|H]; [apply pair_equal_spec in H; destruct H as [_ <-]; reflexivity|]); destruct H.
Ltac table3 H C := repeat (destruct H as [H|H]; [apply pair_equal_spec in H; destruct H as [H <-]; apply pair_equal_spec in H; destruct H as [<- <-];
   first [exfalso; apply C; reflexivity|reflexivity]|]); destruct H.
Ltac setter_only E :=
  unfold set_BemType, set_HeatingEnergyCarrier, set_DhwEnergyCarrier, set_VentilationType in E; cbv zeta in E;
  repeat match type of E with (if ?c then _ else _) = _ => destruct c end; try discriminate;
  (injection E as <-; apply unchanged_intro;
  [intros f; destruct f as [f|f|f|f|f|f|f|f|f|]; try reflexivity; destruct f; reflexivity
  |let H := fresh in intros ? ? H; table H
  |let H := fresh in let C := fresh in intros ? ? ? H C; table3 H C
  |let H := fresh in intros ? ? H; table H|reflexivity|reflexivity]).
Lemma C55_only_l : forall (s : text) (u u' : building_model T),
  (set_HeatingEnergyCarrier s u = Ok u' -> unchanged_except "heatingfueltype" u u') /\
  (set_DhwEnergyCarrier s u = Ok u' -> unchanged_except "dhwfueltype" u u') /\
  (set_VentilationType s u = Ok u' -> unchanged_except "ventilationtype" u u') /\
  (set_BemType s u = Ok u' -> unchanged_except "bemtype" u u').
Proof.
  intros s u u'. split; [|split; [|split]]; intros E; setter_only E.
Qed.
End Load.
