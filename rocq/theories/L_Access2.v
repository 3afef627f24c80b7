(** Lemmas about calls of the accessors of UserModel. *)
From Coq Require Import Ascii String Lia.
From Verif Require Import Base Num Text M_Text M_Properties M_Params M_UserModel.
From Verif Require Import S_Text S_Loading L_Text L_UserModel L_Loading L_Loading2 M_Access S_Access L_Access.
Open Scope list_scope.

Definition all_directions : list compass := [North; NorthEast; East; SouthEast; South; SouthWest; West; NorthWest; Roof].
Lemma all_directions_in d : In d all_directions.
Proof. destruct d; cbn; tauto. Qed.
(** The position of a getter in the vector of a setter, by their names. *)
Definition place (f g : string) : option nat :=
  option_map (fun r => accessor_index (snd r))
    (find (fun r => String.eqb f (vn_setter (fst r)) && String.eqb g (getter_of (fst r) (snd r))) (list_prod vectors all_directions)).
Definition expected (v : vec_field) (s : slot) : option nat :=
  match s with S_elem w i => if vec_eq_dec v w then Some i else None | _ => None end.
Definition same_place (a b : option nat) : bool :=
  match a, b with Some i, Some j => Nat.eqb i j | None, None => true | _, _ => false end.
Lemma places_fit : forallb (fun r => forallb (fun q => same_place (expected (snd r) (snd q)) (place (fst r) (fst q))) getters) vector_setters = true.
Proof. vm_compute. reflexivity. Qed.
Lemma getters_in_range : forallb (fun q => match snd q with S_elem _ i => Nat.ltb i 9 | _ => true end) getters = true.
Proof. vm_compute. reflexivity. Qed.
(** No two getters of one vector have the same name. *)
Lemma places_unique : forallb (fun r => forallb (fun q =>
    implb (String.eqb (vn_setter (fst r)) (vn_setter (fst q)) && String.eqb (getter_of (fst r) (snd r)) (getter_of (fst q) (snd q)))
          (Nat.eqb (accessor_index (snd r)) (accessor_index (snd q)))) (list_prod vectors all_directions)) (list_prod vectors all_directions) = true.
Proof. vm_compute. reflexivity. Qed.

Lemma place_some f g i : place f g = Some i -> exists v d, In v vectors /\ f = vn_setter v /\ getter_of v d = g /\ accessor_index d = i.
Proof.
  unfold place. destruct (find _ _) as [[v d]|] eqn:E; [|discriminate]. intros H. cbn in H. injection H as <-.
  apply find_some in E. destruct E as [I E]. apply andb_prop in E. destruct E as [E1 E2].
  apply String.eqb_eq in E1. apply String.eqb_eq in E2. apply in_prod_iff in I. exists v, d. cbn [fst snd] in *. destruct I as [I _]. auto.
Qed.
Lemma place_of v d : In v vectors -> place (vn_setter v) (getter_of v d) = Some (accessor_index d).
Proof.
  intros I. unfold place. destruct (find _ _) as [[w e]|] eqn:E.
  - apply find_some in E. destruct E as [J E]. cbn. f_equal.
    pose proof places_unique as U. rewrite forallb_forall in U. specialize (U (v, d)).
    rewrite forallb_forall in U. specialize (U ltac:(apply in_prod_iff; split; [exact I|apply all_directions_in]) (w, e) J).
    cbn [fst snd] in U. cbn [fst snd] in E. rewrite E in U. apply PeanoNat.Nat.eqb_eq in U. symmetry. exact U.
  - exfalso. assert (In (v, d) (list_prod vectors all_directions)) as J by (apply in_prod_iff; split; [exact I|apply all_directions_in]).
    pose proof (find_none _ _ E _ J) as F. cbn [fst snd] in F. rewrite !String.eqb_refl in F. discriminate.
Qed.

Section Calls.
Context {T : Type} {N : Num T}.
Implicit Types u : user_state T.

(** What is not read by a getter returning a double. *)
Definition rest_of u : text * text * bool * bool :=
  (us_schedule u, bm_weatherFilePath (us_model u), cl_forcedAir (pa_cooling (bm_params (us_model u))),
   ht_forcedAir (pa_heating (bm_params (us_model u)))).
(** What a call does to the rest. *)
Definition rest_after (c : call T) (r : text * text * bool * bool) : text * text * bool * bool :=
  match r with (s, w, a, h) =>
    match c with
    | CText "setScheduleFilePath" x => (x, w, a, h)
    | CText "setWeatherFilePath" x => (s, x, a, h)
    | CBool "setForcedAirCooling" b => (s, w, b, h)
    | CBool "setForcedAirHeating" b => (s, w, a, b)
    | _ => (s, w, a, h)
    end
  end%string.

Definition step_ok (c : call T) u : Prop :=
  exists u', (invoke c u = Some (Ok u') \/ (u' = u /\ exists e, invoke c u = Some (Throw e))) /\ nine u' /\
  rest_of u' = rest_after c (rest_of u) /\
  forall g s, In (g, s) getters ->
    (exists x, gives g c x /\ read_slot s u' = Ok x) \/ ((forall x, ~ gives g c x) /\ read_slot s u' = read_slot s u).

Lemma number_step f x u : nine u -> In f (map fst setters) -> step_ok (CNumber f x) u.
Proof.
  intros H9 K. destruct (named_in f setters K) as (sl & E & I).
  pose proof setters_writable as W. rewrite forallb_forall in W. specialize (W _ I). cbn [snd] in W.
  destruct (write_read sl x u H9 W) as (u' & U1 & U2 & U3 & U4 & U5 & U6 & U7 & U8).
  exists u'. split; [left; cbn [invoke]; rewrite E; cbn; rewrite U1; reflexivity|]. split; [exact U2|].
  split; [unfold rest_of; rewrite U5, U6, U7, U8; reflexivity|].
  intros g s G.
  pose proof names_fit as F. rewrite forallb_forall in F. specialize (F _ I). rewrite forallb_forall in F. specialize (F _ G).
  cbn [fst snd] in F. apply Bool.eqb_prop in F. unfold same_slot in F.
  destruct (slot_eq_dec sl s) as [->|D].
  - left. exists x. split; [|exact U3]. symmetry in F. unfold fits in F. apply Bool.orb_prop in F. destruct F as [F|F].
    + apply String.eqb_eq in F. subst f. constructor.
    + apply andb_prop in F. destruct F as [F1 F2]. apply String.eqb_eq in F1. apply String.eqb_eq in F2. subst. constructor. reflexivity.
  - right. split; [|apply U4; congruence]. intros y Y. symmetry in F. unfold fits in F. apply Bool.orb_false_elim in F. destruct F as [F1 F2].
    inversion Y; subst.
    + rewrite String.eqb_refl in F1. discriminate.
    + cbn in F2. discriminate.
Qed.

Lemma set_vec_nine v xs (u u' : user_state T) : nine u -> set_vec v xs (us_model u) = Ok (us_model u') ->
  (forall f, get_vec f (pa_structure (bm_params (us_model u'))) = if vec_eq_dec f v then xs else get_vec f (pa_structure (bm_params (us_model u)))) /\ nine u'.
Proof.
  intros H9 E. unfold set_vec in E. destruct (Nat.eqb (List.length xs) 9) eqn:L; [|discriminate].
  apply PeanoNat.Nat.eqb_eq in L. assert (us_model u' = put_structure (us_model u) (put_vec v xs (pa_structure (bm_params (us_model u))))) as E' by congruence.
  split.
  - intros f. rewrite E'. cbn [put_structure bm_params pa_structure]. apply vec_get_put.
  - intros f. rewrite E'. cbn [put_structure bm_params pa_structure]. rewrite vec_get_put. destruct (vec_eq_dec f v); [exact L|apply H9].
Qed.

Lemma vector_step f xs u : nine u -> In f (map fst vector_setters) -> step_ok (CVector f xs) u.
Proof.
  intros H9 K. destruct (named_in f vector_setters K) as (v & E & I).
  assert (P : forall g s, In (g, s) getters -> same_place (expected v s) (place f g) = true).
  { intros g s G. pose proof places_fit as F. rewrite forallb_forall in F. specialize (F _ I). rewrite forallb_forall in F. exact (F _ G). }
  destruct (Nat.eqb (List.length xs) 9) eqn:L.
  - pose (u' := with_model u (put_structure (us_model u) (put_vec v xs (pa_structure (bm_params (us_model u)))))).
    assert (SV : set_vec v xs (us_model u) = Ok (us_model u')) by (unfold set_vec; rewrite L; reflexivity).
    destruct (set_vec_nine v xs u u' H9 SV) as [GV H9'].
    exists u'. split; [left; cbn [invoke]; rewrite E; cbn [option_map]; rewrite SV; reflexivity|].
    split; [exact H9'|]. split; [reflexivity|].
    intros g s G. specialize (P g s G). unfold same_place in P. apply PeanoNat.Nat.eqb_eq in L.
    destruct (place f g) as [i|] eqn:PL.
    + destruct (place_some f g i PL) as (w & d & W1 & W2 & W3 & W4). unfold expected in P.
      destruct s as [h|h|h| |h j]; try discriminate P. destruct (vec_eq_dec v h) as [<-|]; [|discriminate]. apply PeanoNat.Nat.eqb_eq in P. subst j.
      destruct (nth_error xs i) as [x|] eqn:X.
      * left. exists x. split.
        { subst f. eapply gives_vector; [exact W1|exact W3|exact L|rewrite W4; exact X]. }
        cbn [read_slot]. rewrite GV. destruct (vec_eq_dec v v); [|congruence]. unfold vget. rewrite X. reflexivity.
      * exfalso. apply nth_error_None in X. rewrite L in X. pose proof getters_in_range as R. rewrite forallb_forall in R.
        specialize (R _ G). cbn in R. apply PeanoNat.Nat.leb_le in R. lia.
    + right. split.
      * intros x X. inversion X; subst. match goal with V : In ?v0 vectors |- _ => rewrite (place_of v0 _ V) in PL end. discriminate.
      * destruct s as [h|h|h| |h j]; cbn [read_slot]; try reflexivity.
        -- cbn. rewrite num_put_vec. reflexivity.
        -- rewrite GV. unfold expected in P. destruct (vec_eq_dec h v) as [->|]; [|reflexivity].
           destruct (vec_eq_dec v v); [discriminate|congruence].
  - exists u. split; [right; split; [reflexivity|]; exists InvalidArgument; cbn [invoke]; rewrite E; cbn; unfold set_vec; rewrite L; reflexivity|].
    split; [exact H9|]. split; [reflexivity|]. intros g s G. right. split; [|reflexivity].
    intros x X. inversion X; subst. apply PeanoNat.Nat.eqb_neq in L. congruence.
Qed.

(** Calls with a word. *)
Lemma words_step f gname words (set : text -> building_model T -> outcome (building_model T)) cf xs u :
  nine u -> In (f, gname, words) word_setters -> invoke (CText f xs) u = Some (do m <- set xs (us_model u); Ok (with_model u m)) ->
  word_setter set (get_code cf) words ->
  (forall s m m', set s m = Ok m' -> bm_weatherFilePath m' = bm_weatherFilePath m /\ pa_structure (bm_params m') = pa_structure (bm_params m) /\
     cl_forcedAir (pa_cooling (bm_params m')) = cl_forcedAir (pa_cooling (bm_params m)) /\ ht_forcedAir (pa_heating (bm_params m')) = ht_forcedAir (pa_heating (bm_params m)) /\
     ve_vent_rate_flag (pa_ventilation (bm_params m')) = ve_vent_rate_flag (pa_ventilation (bm_params m)) /\
     (forall n, M_Access.get_num n m' = M_Access.get_num n m) /\ (forall c, c <> cf -> get_code c m' = get_code c m)) ->
  rest_after (CText f xs) (rest_of u) = rest_of u ->
  (forall g s, In (g, s) getters -> (g = gname <-> s = S_code cf)) ->
  (forall g' w', In (f, g', w') word_setters -> g' = gname /\ w' = words) ->
  step_ok (CText f xs) u.
Proof.
  intros H9 I E (W1 & W2 & W3) K R G F.
  destruct (set xs (us_model u)) as [m|e|] eqn:S.
  - destruct (W1 _ _ _ S) as (w & code & X1 & X2 & X3). destruct (K _ _ _ S) as (K1 & K2 & K3 & K4 & K5 & K6 & K7).
    exists (with_model u m). split; [left; rewrite E; reflexivity|].
    split; [intros h; cbn [with_model us_model]; rewrite K2; apply H9|].
    split; [rewrite R; unfold rest_of; cbn [with_model us_model us_schedule]; rewrite K1, K3, K4; reflexivity|].
    intros g s In'. specialize (G g s In'). destruct (slot_eq_dec s (S_code cf)) as [->|D].
    + left. exists (zn code). split.
      * assert (g = gname) as -> by tauto. eapply gives_word; eassumption.
      * cbn. rewrite X3. reflexivity.
    + right. split.
      * intros x X. inversion X; subst. destruct (F _ _ ltac:(eassumption)) as [-> _]. tauto.
      * destruct s as [h|h|h| |h j]; cbn; try reflexivity.
        -- rewrite K6. reflexivity.
        -- rewrite K7 by congruence. reflexivity.
        -- rewrite K5. reflexivity.
        -- rewrite K2. reflexivity.
  - exists u. split; [right; split; [reflexivity|]; exists e; rewrite E; reflexivity|]. split; [exact H9|]. split; [symmetry; exact R|].
    intros g s In'. right. split; [|reflexivity]. intros x X. inversion X; subst.
    destruct (F _ _ ltac:(eassumption)) as [-> ->].
    destruct (W2 xs (us_model u) _ _ ltac:(eassumption) ltac:(eassumption)) as (m & M & _). congruence.
  - exfalso. assert (forall w code, In (w, code) words -> ~ same_word xs (tx w)) as Q.
    { intros w code I1 I2. destruct (W2 xs (us_model u) _ _ I1 I2) as (m & M & _). congruence. }
    rewrite (W3 _ _ Q) in S. discriminate.
Qed.

Ltac keep_tac :=
  let s := fresh "s" in let m := fresh "m" in let m' := fresh "m'" in let E := fresh "E" in
  intros s m m' E; unfold set_BemType, set_HeatingEnergyCarrier, set_DhwEnergyCarrier, set_VentilationType in E; cbv zeta in E;
  repeat match type of E with (if ?b then _ else _) = _ => destruct b end; try discriminate E;
  (injection E as <-; (split; [reflexivity|]); (split; [reflexivity|]); (split; [reflexivity|]); (split; [reflexivity|]); (split; [reflexivity|]); split;
  [let n := fresh in intros n; destruct n as [n|n|n|n|n|n|n|n|n|]; try reflexivity; destruct n; reflexivity
  |let c := fresh in intros c D; destruct c; try reflexivity; congruence]).

Definition is_code (s : slot) (c : code_field) : bool := match s with S_code d => if code_eq_dec c d then true else false | _ => false end.
Lemma code_getters : forallb (fun q => 
    Bool.eqb (String.eqb (fst q) "bemType") (is_code (snd q) C_bem) &&
    Bool.eqb (String.eqb (fst q) "dhwEnergyCarrier") (is_code (snd q) C_dhw) &&
    Bool.eqb (String.eqb (fst q) "heatingEnergyCarrier") (is_code (snd q) C_heating) &&
    Bool.eqb (String.eqb (fst q) "ventilationType") (is_code (snd q) C_ventilation) &&
    Bool.eqb (String.eqb (fst q) "vent_rate_flag") (match snd q with S_rate_flag => true | _ => false end))%bool getters = true.
Proof. vm_compute. reflexivity. Qed.
Lemma is_code_spec s c : is_code s c = true <-> s = S_code c.
Proof. destruct s as [h|h|h| |h j]; cbn; try (split; intros; discriminate). destruct (code_eq_dec c h); split; intros; congruence. Qed.
Lemma code_getter g s : In (g, s) getters ->
  (g = "bemType"%string <-> s = S_code C_bem) /\ (g = "dhwEnergyCarrier"%string <-> s = S_code C_dhw) /\
  (g = "heatingEnergyCarrier"%string <-> s = S_code C_heating) /\ (g = "ventilationType"%string <-> s = S_code C_ventilation) /\
  (g = "vent_rate_flag"%string <-> s = S_rate_flag).
Proof.
  intros I. pose proof code_getters as H. rewrite forallb_forall in H. specialize (H _ I). cbn [fst snd] in H.
  repeat (apply andb_prop in H; let X := fresh "X" in destruct H as [H X]; apply Bool.eqb_prop in X). apply Bool.eqb_prop in H.
  rewrite <- !is_code_spec, <- !String.eqb_eq. rewrite H, X0, X1, X2, X. repeat split; try tauto; destruct s; congruence.
Qed.

Ltac no_word H := unfold word_setters in H; cbn [In] in H; repeat (destruct H as [H|H]; [discriminate H|]); destruct H.
Ltac one_word H := unfold word_setters in H; cbn [In] in H;
  repeat (destruct H as [H|H]; [first [discriminate H|injection H as <- <-; split; reflexivity]|]); destruct H.

Lemma text_step f xs u : nine u -> In f (map fst (@text_setters T N)) -> step_ok (CText f xs) u.
Proof.
  intros H9 K. cbn in K. destruct K as [<-|[<-|[<-|[<-|[<-|[<-|[]]]]]]].
  - eexists. split; [left; reflexivity|]. split; [exact H9|]. split; [reflexivity|].
    intros g s G. right. split; [|destruct s as [[h|h|h|h|h|h|h|h|h|]|h|h| |h j]; try reflexivity; destruct h; reflexivity].
    intros x X. inversion X; subst. match goal with H : In _ word_setters |- _ => no_word H end.
  - eapply (words_step _ "bemType" _ set_BemType C_bem); [exact H9|cbn; tauto|reflexivity|exact bem_words|keep_tac|reflexivity| |].
    + intros g s G. apply (code_getter g s G).
    + intros g w Q. one_word Q.
  - eapply (words_step _ "dhwEnergyCarrier" _ set_DhwEnergyCarrier C_dhw); [exact H9|cbn; tauto|reflexivity|exact dhw_words|keep_tac|reflexivity| |].
    + intros g s G. apply (code_getter g s G).
    + intros g w Q. one_word Q.
  - eapply (words_step _ "heatingEnergyCarrier" _ set_HeatingEnergyCarrier C_heating); [exact H9|cbn; tauto|reflexivity|exact heating_words|keep_tac|reflexivity| |].
    + intros g s G. apply (code_getter g s G).
    + intros g w Q. one_word Q.
  - eexists. split; [left; reflexivity|]. split; [exact H9|]. split; [reflexivity|].
    intros g s G. right. split; [|destruct s; reflexivity].
    intros x X. inversion X; subst. match goal with H : In _ word_setters |- _ => no_word H end.
  - eapply (words_step _ "ventilationType" _ set_VentilationType C_ventilation); [exact H9|cbn; tauto|reflexivity|exact ventilation_words|keep_tac|reflexivity| |].
    + intros g s G. apply (code_getter g s G).
    + intros g w Q. one_word Q.
Qed.

Lemma bool_step f b u : nine u -> In f (map fst (@bool_setters T)) -> step_ok (CBool f b) u.
Proof.
  intros H9 K. cbn in K. destruct K as [<-|[<-|[]]].
  all: eexists; split; [left; reflexivity|]; split; [exact H9|]; split; [reflexivity|];
    intros g s G; right; split; [intros x X; inversion X|].
  all: destruct s as [[h|h|h|h|h|h|h|h|h|]|h|h| |h j]; try reflexivity; destruct h; reflexivity.
Qed.
Lemma int_step f z u : nine u -> In f (map fst (@int_setters T)) -> step_ok (CInt f z) u.
Proof.
  intros H9 K. cbn in K. destruct K as [<-|[]].
  eexists. split; [left; reflexivity|]. split; [exact H9|]. split; [reflexivity|].
  intros g s G. destruct (code_getter g s G) as (_ & _ & _ & _ & F). destruct s as [[h|h|h|h|h|h|h|h|h|]|h|h| |h j].
  13: { left. exists (zn z). split; [constructor; tauto|reflexivity]. }
  all: right; (split; [intros x X; inversion X; subst; destruct F as [F _]; specialize (F eq_refl); discriminate|]); try reflexivity.
  all: destruct h; reflexivity.
Qed.

Lemma call_step c u : nine u -> known c -> step_ok c u.
Proof.
  intros H9 K. destruct c; cbn in K;
  [apply number_step|apply vector_step|apply text_step|apply bool_step|apply int_step]; assumption.
Qed.
End Calls.
