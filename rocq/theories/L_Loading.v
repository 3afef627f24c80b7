(** Lemmas about loading a building: the whole effect of loadBuilding. *)
From Coq Require Import Ascii String.
From Verif Require Import Base Num Text M_Text M_Properties M_Params M_UserModel S_Text S_Loading L_Text L_Properties L_UserModel.
From Verif Require Import L_HourlyShape.
Open Scope list_scope.

Section Load.
Context {T : Type} {N : Num T}.
Notation init := (@initializeParameter T).
Notation bs := (@all_bindings T N).

Lemma ofold_once : forall A (proj : building_model T -> A) rd m l b,
  NoDup (map bkey l) -> In b l ->
  (forall b', In b' l -> bkey b' <> bkey b -> keeps proj b') ->
  forall u u', ofold (init rd m) l u = Ok u' ->
  exists u1 u2, proj u1 = proj u /\ init rd m u1 b = Ok u2 /\ proj u' = proj u2.
Proof.
  intros A proj rd m. 
  assert (KK : forall l, (forall b', In b' l -> keeps proj b') -> forall u u', ofold (init rd m) l u = Ok u' -> proj u' = proj u).
  { induction l as [|b l IH]; intros K u u' E; cbn [ofold] in E.
    - injection E as <-. reflexivity.
    - destruct (obind_ok _ _ _ E) as (u1&E1&E2).
      rewrite (IH (fun b' H => K b' (or_intror H)) u1 u' E2). eapply (K b (or_introl eq_refl)). exact E1. }
  induction l as [|c l IH]; intros b ND I K u u' E; [destruct I|].
  cbn [ofold] in E. destruct (obind_ok _ _ _ E) as (u1&E1&E2). cbn [map] in ND. inversion ND as [|? ? NI ND']; subst.
  destruct I as [->|I].
  - exists u, u1. split; [reflexivity|split; [exact E1|]].
    apply (KK l); [|exact E2]. intros b' H. apply K; [right; exact H|].
    intros C. apply NI. rewrite <- C. apply in_map. exact H.
  - destruct (IH b ND' I (fun b' H => K b' (or_intror H)) u1 u' E2) as (v1&v2&P1&P2&P3).
    exists v1, v2. split; [|split; assumption]. rewrite P1.
    eapply (K c (or_introl eq_refl)); [|exact E1]. intros C. apply NI. rewrite C. apply in_map. exact I.
Qed.

Definition find_binding (k : text) : option (binding T) := find (fun b => text_eqb (bkey b) k) bs.
Lemma find_binding_in : forall k b, find_binding k = Some b -> In b bs.
Proof. intros k b H. unfold find_binding in H. apply find_some in H. apply H. Qed.

Ltac bound := match goal with |- In (BDouble ?k _ _) _ => apply (find_binding_in k); vm_compute; reflexivity end.

Fixpoint nodupb (l : list text) : bool :=
  match l with [] => true | a :: r => negb (existsb (text_eqb a) r) && nodupb r end.
Lemma nodupb_ok : forall l, nodupb l = true -> NoDup l.
Proof.
  induction l as [|a l IH]; intros H; [constructor|]. cbn in H. apply andb_prop in H. destruct H as [H1 H2].
  constructor; [|apply IH; exact H2]. intros I. rewrite (proj2 (existsb_exists _ _)) in H1; [discriminate|].
  exists a. split; [exact I|apply text_eqb_refl].
Qed.
Lemma keys_nodup : NoDup (map bkey bs).
Proof. apply nodupb_ok. vm_compute. reflexivity. Qed.

Lemma once : forall A (proj : building_model T -> A) rd m b, In b bs ->
  (forall b', In b' bs -> bkey b' <> bkey b -> keeps proj b') ->
  forall u u', ofold (init rd m) bs u = Ok u' ->
  exists u1 u2, proj u1 = proj u /\ init rd m u1 b = Ok u2 /\ proj u' = proj u2.
Proof. intros A proj rd m b I K. apply (ofold_once A proj rd m bs b keys_nodup I K). Qed.

(** Numbers. *)
Definition field_key (f : num_field) : option text :=
  option_map bkey (find (fun b => match b with BDouble _ _ g => if num_eq_dec f g then true else false | _ => false end) bs).
Lemma field_keys : Forall (fun b => match b with BDouble k _ f => field_key f = Some k | _ => True end) bs.
Proof. unfold all_bindings. cbn [app parameter_bindings structure_bindings]. repeat constructor. Qed.

Lemma number_keeps : forall k r f, In (BDouble k r f) bs ->
  forall b', In b' bs -> bkey b' <> k -> keeps (get_num f) b'.
Proof.
  intros k r f I b' I' NE. destruct (in_all b' I') as [(k'&r'&g&->)|O]; [|apply others_keep_num; exact O].
  apply double_keeps_num. intros <-. apply NE. cbn.
  pose proof (proj1 (Forall_forall _ _) field_keys _ I) as H1.
  pose proof (proj1 (Forall_forall _ _) field_keys _ I') as H2. cbn in H1, H2. congruence.
Qed.

Lemma number_loaded : forall rd m u u' k r f, In (BDouble k r f) bs ->
  ofold (init rd m) bs u = Ok u' ->
  match getProperty m k with
  | Some s => match rd_stod rd s with Value x => get_num f u' = x
              | NoConversion => r = false /\ get_num f u' = get_num f u | RangeError => False end
  | None => r = false /\ get_num f u' = get_num f u
  end.
Proof.
  intros rd m u u' k r f I E.
  destruct (once _ (get_num f) rd m _ I (number_keeps k r f I) u u' E) as (u1&u2&P1&P2&P3).
  unfold initializeParameter, getPropertyAsDouble in P2.
  destruct (getProperty m k) as [s|].
  - destruct (rd_stod rd s) as [x| |]; cbn in P2; [|destruct r; [discriminate|]|discriminate].
    + injection P2 as <-. rewrite P3, num_lens. destruct (num_eq_dec f f); [reflexivity|contradiction].
    + injection P2 as <-. split; [reflexivity|congruence].
  - cbn in P2. destruct r; [discriminate|]. injection P2 as <-. split; [reflexivity|congruence].
Qed.

Lemma required_numbers_bound : forall k (p : building_model T -> T), In (k, p) required_numbers ->
  exists f, In (BDouble (tx k) true f) bs /\ forall u, p u = get_num f u.
Proof.
  intros k p H. unfold required_numbers in H.
  repeat (destruct H as [H|H]; [apply pair_equal_spec in H; destruct H as [<- <-]; eexists; split; [bound|intros; reflexivity]|]).
  destruct H.
Qed.
Lemma optional_numbers_bound : forall k (p : building_model T -> T), In (k, p) optional_numbers ->
  exists f, In (BDouble (tx k) false f) bs /\ forall u, p u = get_num f u.
Proof.
  intros k p H. unfold optional_numbers in H.
  repeat (destruct H as [H|H]; [apply pair_equal_spec in H; destruct H as [<- <-]; eexists; split; [bound|intros; reflexivity]|]).
  destruct H.
Qed.

(** The other kinds. *)
Ltac text_setter E :=
  unfold set_BemType, set_HeatingEnergyCarrier, set_DhwEnergyCarrier, set_VentilationType, set_WeatherFilePath in E;
  repeat match type of E with (if ?c then _ else _) = _ => destruct c end; try discriminate;
  injection E as <-.
Ltac other_keeps :=
  let b' := fresh in let H := fresh in let NE := fresh in
  intros b' H NE; cbn [bkey] in NE; destruct (in_all b' H) as [(?k&?r&?g&->)|?H'];
  [apply keeps_intro; intros ? ?;
   match goal with g : num_field |- _ => destruct g as [g|g|g|g|g|g|g|g|g|]; try destruct g; reflexivity end
  |match goal with H' : In _ others |- _ => unfold others in H'; cbn in H';
   repeat (destruct H' as [<-|H'];
     [first [exfalso; apply NE; reflexivity
            |apply keeps_intro; first [intros ? ?; reflexivity | let E := fresh in intros ? ? ? E; text_setter E; reflexivity]]|]);
   destruct H' end].

Lemma flags_loaded : forall rd m u u', ofold (init rd m) bs u = Ok u' ->
  forall k p, In (k, p) optional_flags ->
     (getProperty m (tx k) = Some (tx "true") /\ p u' = true) \/
     (getProperty m (tx k) = Some (tx "false") /\ p u' = false) \/
     (getProperty m (tx k) <> Some (tx "true") /\ getProperty m (tx k) <> Some (tx "false") /\ p u' = p u).
Proof.
  intros rd m u u' E k p H.
  assert (F : forall set, (forall x u, p (set x u) = x) -> In (BBool (tx k) false set) bs ->
    (forall b', In b' bs -> bkey b' <> tx k -> keeps p b') ->
     (getProperty m (tx k) = Some (tx "true") /\ p u' = true) \/
     (getProperty m (tx k) = Some (tx "false") /\ p u' = false) \/
     (getProperty m (tx k) <> Some (tx "true") /\ getProperty m (tx k) <> Some (tx "false") /\ p u' = p u)).
  { intros set L I K. destruct (once _ p rd m _ I K u u' E) as (u1&u2&P1&P2&P3).
    unfold initializeParameter, getPropertyAsBool in P2. destruct (getProperty m (tx k)) as [s|].
    - destruct (text_eqb s (tx "true")) eqn:E1.
      { apply text_eqb_eq in E1 as ->. injection P2 as <-. left. rewrite P3. auto. }
      destruct (text_eqb s (tx "false")) eqn:E2.
      { apply text_eqb_eq in E2 as ->. injection P2 as <-. right; left. rewrite P3. auto. }
      injection P2 as <-. right; right. apply text_eqb_neq in E1. apply text_eqb_neq in E2.
      split; [congruence|split; congruence].
    - injection P2 as <-. right; right. split; [discriminate|split; [discriminate|congruence]]. }
  destruct H as [H|[H|[]]]; apply pair_equal_spec in H; destruct H as [<- <-].
  - apply (F set_cl_forcedAir); [reflexivity|apply (find_binding_in (tx "forcedaircooling")); vm_compute; reflexivity|other_keeps].
  - apply (F set_ht_forcedAir); [reflexivity|apply (find_binding_in (tx "forcedairheating")); vm_compute; reflexivity|other_keeps].
Qed.

Lemma integer_loaded : forall rd m u u', ofold (init rd m) bs u = Ok u' ->
  let (k, p) := optional_integer in optional_result (rd_stoi rd) (getProperty m (tx k)) (p u) (p u').
Proof.
  intros rd m u u' E. unfold optional_integer.
  assert (I : In (BInt (tx "vent_rate_flag") false set_ve_vent_rate_flag) bs)
    by (apply (find_binding_in (tx "vent_rate_flag")); vm_compute; reflexivity).
  destruct (once _ (fun u => ve_vent_rate_flag (pa_ventilation (bm_params u))) rd m _ I ltac:(other_keeps) u u' E) as (u1&u2&P1&P2&P3).
  unfold initializeParameter, getPropertyAsInt in P2. unfold optional_result.
  destruct (getProperty m (tx "vent_rate_flag")) as [s|].
  - destruct (rd_stoi rd s) as [x| |]; cbn in P2; [| |discriminate]; injection P2 as <-.
    + rewrite P3. reflexivity.
    + congruence.
  - cbn in P2. injection P2 as <-. congruence.
Qed.

Lemma path_loaded : forall rd m u u', ofold (init rd m) bs u = Ok u' ->
  getProperty m (tx "weatherfilepath") = Some (bm_weatherFilePath u').
Proof.
  intros rd m u u' E.
  assert (I : In (BText (tx "weatherfilepath") true set_WeatherFilePath) bs)
    by (apply (find_binding_in (tx "weatherfilepath")); vm_compute; reflexivity).
  destruct (once _ bm_weatherFilePath rd m _ I ltac:(other_keeps) u u' E) as (u1&u2&P1&P2&P3).
  unfold initializeParameter in P2. destruct (getProperty m (tx "weatherfilepath")) as [s|]; [|discriminate].
  injection P2 as <-. rewrite P3. reflexivity.
Qed.

(** A text setter accepts exactly its words. *)
Lemma eqb_word : forall s w, lower (tx w) = tx w -> text_eqb (lower s) (tx w) = true <-> same_word s (tx w).
Proof. intros s w L. rewrite text_eqb_eq, same_word_lower, L. tauto. Qed.

Definition word_setter (set : text -> building_model T -> outcome (building_model T)) (p : building_model T -> T)
  (words : list (string * Z)) : Prop :=
  (forall s u u', set s u = Ok u' -> exists w code, In (w, code) words /\ same_word s (tx w) /\ p u' = zn code) /\
  (forall s u w code, In (w, code) words -> same_word s (tx w) -> exists u', set s u = Ok u' /\ p u' = zn code) /\
  (forall s u, (forall w code, In (w, code) words -> ~ same_word s (tx w)) -> set s u = Throw InvalidArgument).

Ltac word_setter_tac :=
  split; [|split];
  [let s := fresh "s" in let u := fresh in let u' := fresh in let E := fresh "E" in
   intros s u u' E; unfold set_BemType, set_HeatingEnergyCarrier, set_DhwEnergyCarrier, set_VentilationType in E; cbv zeta in E;
   repeat match type of E with
   | (if text_eqb (lower s) (tx ?w) then _ else _) = _ =>
       let C := fresh "C" in destruct (text_eqb (lower s) (tx w)) eqn:C;
       [apply (eqb_word s w eq_refl) in C; injection E as <-; eexists _, _;
        split; [|split; [exact C|reflexivity]]; cbn; tauto|]
   end; discriminate E
  |let s := fresh "s" in let u := fresh in let w := fresh in let code := fresh in let H := fresh "H" in let W := fresh "W" in
   intros s u w code H W; unfold set_BemType, set_HeatingEnergyCarrier, set_DhwEnergyCarrier, set_VentilationType; cbv zeta; apply same_word_lower in W;
   repeat (destruct H as [H|H]; [apply pair_equal_spec in H; destruct H as [<- <-]; rewrite W; cbn; eexists; split; reflexivity|]);
   destruct H
  |let s := fresh "s" in let u := fresh in let H := fresh "H" in
   intros s u H; unfold set_BemType, set_HeatingEnergyCarrier, set_DhwEnergyCarrier, set_VentilationType; cbv zeta;
   repeat match goal with
   | |- (if text_eqb (lower s) (tx ?w) then _ else _) = _ =>
       let C := fresh "C" in destruct (text_eqb (lower s) (tx w)) eqn:C;
       [exfalso; apply (eqb_word s w eq_refl) in C; eapply H; [|exact C]; cbn; tauto|]
   end; reflexivity].

Lemma heating_words : word_setter set_HeatingEnergyCarrier (fun u => ht_energyType (pa_heating (bm_params u))) [("electric", 1); ("gas", 2)]%Z%string.
Proof. word_setter_tac. Qed.
Lemma dhw_words : word_setter set_DhwEnergyCarrier (fun u => ht_hotWaterEnergyType (pa_heating (bm_params u))) [("electric", 1); ("gas", 2)]%Z%string.
Proof. word_setter_tac. Qed.
Lemma ventilation_words : word_setter set_VentilationType (fun u => ve_type (pa_ventilation (bm_params u))) [("mechanical", 1); ("combined", 2); ("natural", 3)]%Z%string.
Proof. word_setter_tac. Qed.
Lemma bem_words : word_setter set_BemType (fun u => bu_bem (pa_building (bm_params u))) [("none", 1); ("simple", 2); ("advanced", 3)]%Z%string.
Proof. word_setter_tac. Qed.

Lemma words_bound : forall k p words, In (k, p, words) required_words ->
  exists set, In (BText (tx k) true set) bs /\ word_setter set p words /\
    (forall b', In b' bs -> bkey b' <> tx k -> keeps p b').
Proof.
  intros k p words H.
  destruct H as [H|[H|[H|[H|[]]]]]; apply pair_equal_spec in H; destruct H as [H <-]; apply pair_equal_spec in H; destruct H as [<- <-].
  - exists set_HeatingEnergyCarrier. split; [apply (find_binding_in (tx "heatingfueltype")); vm_compute; reflexivity|split; [exact heating_words|other_keeps]].
  - exists set_VentilationType. split; [apply (find_binding_in (tx "ventilationtype")); vm_compute; reflexivity|split; [exact ventilation_words|other_keeps]].
  - exists set_DhwEnergyCarrier. split; [apply (find_binding_in (tx "dhwfueltype")); vm_compute; reflexivity|split; [exact dhw_words|other_keeps]].
  - exists set_BemType. split; [apply (find_binding_in (tx "bemtype")); vm_compute; reflexivity|split; [exact bem_words|other_keeps]].
Qed.

Lemma words_loaded : forall rd m u u', ofold (init rd m) bs u = Ok u' ->
  forall k p words, In (k, p, words) required_words ->
     exists s w code, getProperty m (tx k) = Some s /\ In (w, code) words /\ same_word s (tx w) /\ p u' = zn code.
Proof.
  intros rd m u u' E k p words H. destruct (words_bound k p words H) as (set&I&(W&_)&K).
  destruct (once _ p rd m _ I K u u' E) as (u1&u2&P1&P2&P3).
  unfold initializeParameter in P2. destruct (getProperty m (tx k)) as [s|]; [|discriminate].
  destruct (W _ _ _ P2) as (w&code&W1&W2&W3). exists s, w, code. repeat split; try assumption. congruence.
Qed.

(** Vectors. *)
Lemma directions_ok : forall A (xs ys : list A), northToSouth xs = Ok ys -> List.length ys = 9%nat -> same_directions xs ys.
Proof.
  intros A xs ys E L.
  destruct xs as [|a xs]; [discriminate|]. destruct xs as [|b xs]; [discriminate|]. destruct xs as [|c xs]; [discriminate|].
  destruct xs as [|d xs]; [discriminate|]. destruct xs as [|e xs]; [discriminate|]. destruct xs as [|f xs]; [discriminate|].
  destruct xs as [|g xs]; [discriminate|]. destruct xs as [|h xs]; [discriminate|].
  cbn in E. injection E as <-. cbn in L. destruct xs as [|i [|]]; try discriminate.
  split; [reflexivity|split; [reflexivity|]]. intros []; reflexivity.
Qed.
Lemma directions_nine : forall A (xs : list A), List.length xs = 9%nat -> exists ys, northToSouth xs = Ok ys /\ List.length ys = 9%nat.
Proof.
  intros A xs L. do 9 (destruct xs as [|? xs]; [discriminate|]). destruct xs; [|discriminate].
  eexists. split; reflexivity.
Qed.
Lemma directions_unique : forall A (xs ys zs : list A), same_directions xs ys -> same_directions xs zs -> ys = zs.
Proof.
  intros A xs ys zs (L&L1&D1) (_&L2&D2). apply nth_error_ext. intros k.
  destruct (Nat.lt_ge_cases k 9) as [H|H].
  - assert (Q : exists d, k = accessor_index d).
    { do 9 (destruct k as [|k]; [first [exists South; reflexivity|exists SouthEast; reflexivity|exists East; reflexivity|exists NorthEast; reflexivity
        |exists North; reflexivity|exists NorthWest; reflexivity|exists West; reflexivity|exists SouthWest; reflexivity|exists Roof; reflexivity]|]). lia. }
    destruct Q as (d&->). rewrite D1, D2. reflexivity.
  - rewrite (proj2 (nth_error_None ys k)), (proj2 (nth_error_None zs k)); [reflexivity|lia|lia].
Qed.

Lemma vectors_bound : forall k (p : building_model T -> list T), In (k, p) required_vectors ->
  exists f, In (BVec (tx k) true f) bs /\ (forall x u, p (put_structure u (put_vec f x (pa_structure (bm_params u)))) = x) /\
    (forall b', In b' bs -> bkey b' <> tx k -> keeps p b').
Proof.
  intros k p H. unfold required_vectors in H.
  repeat (destruct H as [H|H]; [apply pair_equal_spec in H; destruct H as [<- <-]; eexists; split;
    [match goal with |- In (BVec ?k _ _) _ => apply (find_binding_in k); vm_compute; reflexivity end
    |split; [intros; reflexivity|other_keeps]]|]).
  destruct H.
Qed.

Lemma vectors_loaded : forall rd m u u', ofold (init rd m) bs u = Ok u' ->
  forall k (p : building_model T -> list T), In (k, p) required_vectors ->
     exists xs, getPropertyAsDoubleVector rd m (tx k) = Ok (Some xs) /\ same_directions xs (p u').
Proof.
  intros rd m u u' E k p H. destruct (vectors_bound k p H) as (f&I&L&K).
  destruct (once _ p rd m _ I K u u' E) as (u1&u2&P1&P2&P3).
  unfold initializeParameter in P2. destruct (getPropertyAsDoubleVector rd m (tx k)) as [[xs|]| |]; try discriminate.
  cbn in P2. destruct (northToSouth xs) as [ys| |] eqn:NS; try discriminate. cbn in P2. unfold set_vec in P2.
  destruct (Nat.eqb (List.length ys) 9) eqn:Q; [|discriminate]. injection P2 as <-. apply Nat.eqb_eq in Q.
  exists xs. split; [reflexivity|]. rewrite P3, L. apply directions_ok; assumption.
Qed.

Lemma fold_bindings : forall rd m u, (do u1 <- initializeParameters rd m u; initializeStructure rd m u1) = ofold (init rd m) bs u.
Proof. intros. unfold all_bindings, initializeParameters, initializeStructure. rewrite ofold_app. reflexivity. Qed.

Lemma load_loaded : forall rd m u u', ofold (init rd m) bs u = Ok u' ->
  loaded rd (getProperty m) (getPropertyAsDoubleVector rd m) u u'.
Proof.
  intros rd m u u' E. repeat split.
  - intros k p H. destruct (required_numbers_bound k p H) as (f&I&P).
    pose proof (number_loaded rd m u u' _ _ _ I E) as Q. rewrite P.
    destruct (getProperty m (tx k)) as [s|]; [|destruct Q; discriminate]. exists s. split; [reflexivity|].
    destruct (rd_stod rd s); [congruence|destruct Q; discriminate|destruct Q].
  - intros k p H. destruct (optional_numbers_bound k p H) as (f&I&P).
    pose proof (number_loaded rd m u u' _ _ _ I E) as Q. rewrite !P. unfold optional_result.
    destruct (getProperty m (tx k)) as [s|]; [|apply Q]. destruct (rd_stod rd s); [exact Q|apply Q|exact Q].
  - exact (flags_loaded rd m u u' E).
  - exact (integer_loaded rd m u u' E).
  - exact (words_loaded rd m u u' E).
  - exact (vectors_loaded rd m u u' E).
  - exact (path_loaded rd m u u' E).
Qed.
End Load.
