(** Lemmas about setters and the entries of the building file. *)
From Coq Require Import Ascii String Lia.
From Verif Require Import Base Num Text M_Text M_Properties M_Params M_UserModel.
From Verif Require Import S_Text S_Loading L_Text L_Properties L_UserModel L_Loading L_Loading2 L_Loading3 M_Access S_Access L_Access.
Open Scope list_scope.

Lemma nodup_same {A B} (f : A -> B) l : NoDup (map f l) -> forall a b, In a l -> In b l -> f a = f b -> a = b.
Proof.
  induction l as [|x l IH]; intros N a b Ia Ib E; [destruct Ia|]. cbn in N. inversion N as [|? ? N1 N2]; subst.
  destruct Ia as [<-|Ia], Ib as [<-|Ib]; [reflexivity| | |auto].
  - exfalso. apply N1. rewrite E. apply in_map. exact Ib.
  - exfalso. apply N1. rewrite <- E. apply in_map. exact Ia.
Qed.

Section Files.
Context {T : Type} {N : Num T}.
Notation bs := (@all_bindings T N).
Notation init := (@initializeParameter T).

Lemma lower_keys : NoDup (map (fun b => lower (bkey b)) bs).
Proof. rewrite <- (map_map bkey lower). apply nodupb_ok. vm_compute. reflexivity. Qed.
Lemma unique_binding b b' : In b bs -> In b' bs -> lower (bkey b) = lower (bkey b') -> b = b'.
Proof. intros I I' E. exact (nodup_same _ _ lower_keys b b' I I' E). Qed.
Lemma other_binding b b' : In b bs -> In b' bs -> bkey b <> bkey b' -> lower (bkey b) <> lower (bkey b').
Proof. intros I I' E C. apply E. f_equal. apply unique_binding; assumption. Qed.

Definition takes (rd : reader T) (m : props) (b : binding T) : Prop :=
  match b with
  | BDouble k _ _ => exists s x, getProperty m k = Some s /\ rd_stod rd s = Value x
  | BInt k _ _ => exists s x, getProperty m k = Some s /\ rd_stoi rd s = Value x
  | BBool k _ _ => exists x : bool, getProperty m k = Some (tx (if x then "true" else "false"))
  | BVec _ _ _ | BText _ _ _ => True
  end.
Definition agree (b : binding T) (m1 m2 : props) : Prop :=
  forall k, lower k <> lower (bkey b) -> getProperty m2 k = getProperty m1 k.

Ltac text_setter E :=
  unfold set_BemType, set_HeatingEnergyCarrier, set_DhwEnergyCarrier, set_VentilationType, set_WeatherFilePath in E;
  repeat match type of E with (if ?c then _ else _) = _ => destruct c end; try discriminate;
  injection E as <-.
Ltac other_keeps :=
  let b' := fresh in let H := fresh in let NE := fresh in
  intros b' H NE; cbn [bkey] in NE; destruct (in_all b' H) as [(?k&?r&?g&->)|?H'];
  [apply keeps_intro; intros ? ?;
   match goal with g : num_field |- _ => destruct g as [g|g|g|g|g|g|g|g|g|]; try destruct g; reflexivity end
  |match goal with H' : In _ others |- _ => unfold others in H'; cbn in H';
   repeat (destruct H' as [<-|H'];
     [first [exfalso; apply NE; reflexivity
            |apply keeps_intro; first [intros ? ?; reflexivity | let E := fresh in intros ? ? ? E; text_setter E; reflexivity]]|]);
   destruct H' end].

Lemma flags_bound : forall k p, In (k, p) (@optional_flags T) ->
  exists set, In (BBool (tx k) false set) bs /\ (forall x u, p (set x u) = x) /\
    (forall b', In b' bs -> bkey b' <> tx k -> keeps p b').
Proof.
  intros k p H. destruct H as [H|[H|[]]]; apply pair_equal_spec in H; destruct H as [<- <-].
  - exists set_cl_forcedAir. split; [apply (find_binding_in (tx "forcedaircooling")); vm_compute; reflexivity|]. split; [reflexivity|other_keeps].
  - exists set_ht_forcedAir. split; [apply (find_binding_in (tx "forcedairheating")); vm_compute; reflexivity|]. split; [reflexivity|other_keeps].
Qed.
Lemma integer_bound : In (BInt (tx "vent_rate_flag") false set_ve_vent_rate_flag) bs /\
    (forall b', In b' bs -> bkey b' <> tx "vent_rate_flag" -> keeps (fun u => ve_vent_rate_flag (pa_ventilation (bm_params u))) b').
Proof. split; [apply (find_binding_in (tx "vent_rate_flag")); vm_compute; reflexivity|other_keeps]. Qed.
Lemma path_bound : In (BText (tx "weatherfilepath") true set_WeatherFilePath) bs /\
    (forall b', In b' bs -> bkey b' <> tx "weatherfilepath" -> keeps bm_weatherFilePath b').
Proof. split; [apply (find_binding_in (tx "weatherfilepath")); vm_compute; reflexivity|other_keeps]. Qed.

(** One more binding, from a map that agrees elsewhere. *)
Lemma edited rd m1 m2 u u1 v b : In b bs -> agree b m1 m2 -> takes rd m2 b ->
  loaded rd (getProperty m1) (getPropertyAsDoubleVector rd m1) u u1 -> init rd m2 u1 b = Ok v ->
  loaded rd (getProperty m2) (getPropertyAsDoubleVector rd m2) u v.
Proof.
  intros I A K (A1&A2&A3&A4&A5&A6&A7) E.
  assert (AG : forall b', In b' bs -> bkey b' <> bkey b -> getProperty m2 (bkey b') = getProperty m1 (bkey b')).
  { intros b' I' D. apply A. apply other_binding; assumption. }
  assert (SAME : forall b', In b' bs -> bkey b' = bkey b -> b = b').
  { intros b' I' D. apply unique_binding; [assumption|assumption|congruence]. }
  assert (NUM : forall k r f, In (BDouble (tx k) r f) bs -> tx k = bkey b ->
            exists s, getProperty m2 (tx k) = Some s /\ rd_stod rd s = Value (get_num f v)).
  { intros k r f J D. specialize (SAME _ J D). subst b. destruct K as (s & x & K1 & K2). exists s. split; [exact K1|].
    cbn in E. unfold getPropertyAsDouble in E. rewrite K1, K2 in E. cbn in E. injection E as <-. rewrite num_lens.
    destruct (num_eq_dec f f); congruence. }
  split; [|split; [|split; [|split; [|split; [|split]]]]].
  - intros k p H. destruct (required_numbers_bound k p H) as (f&J&P).
    destruct (text_eq_dec (tx k) (bkey b)) as [D|D].
    + rewrite P. exact (NUM _ _ _ J D).
    + destruct (A1 k p H) as (s & S1 & S2). exists s. split; [rewrite <- S1; exact (AG _ J D)|].
      rewrite P. rewrite (number_keeps _ _ _ J b I ltac:(cbn in D; congruence) _ _ _ _ E). rewrite <- P. exact S2.
  - intros k p H. destruct (optional_numbers_bound k p H) as (f&J&P).
    destruct (text_eq_dec (tx k) (bkey b)) as [D|D].
    + rewrite !P. unfold optional_result. destruct (NUM _ _ _ J D) as (s & -> & ->). reflexivity.
    + pose proof (A2 k p H) as Q. pose proof (AG _ J D) as G. cbn [bkey] in G. rewrite G.
      rewrite (P v), (number_keeps _ _ _ J b I ltac:(cbn in D; congruence) _ _ _ _ E), <- P. exact Q.
  - intros k p H. destruct (flags_bound k p H) as (set & J & P & Q).
    destruct (text_eq_dec (tx k) (bkey b)) as [D|D].
    + specialize (SAME _ J D). subst b. destruct K as (x & K1). cbn in E. unfold getPropertyAsBool in E. rewrite K1 in E.
      destruct x; cbn in E; injection E as <-; [left|right; left]; (split; [exact K1|apply P]).
    + pose proof (A3 k p H) as R. pose proof (AG _ J D) as G. cbn [bkey] in G. rewrite G.
      rewrite (Q b I ltac:(cbn in D; congruence) _ _ _ _ E). exact R.
  - unfold optional_integer in *. destruct integer_bound as [J Q].
    destruct (text_eq_dec (tx "vent_rate_flag") (bkey b)) as [D|D].
    + specialize (SAME _ J D). subst b. destruct K as (s & x & K1 & K2). cbn [initializeParameter] in E. unfold getPropertyAsInt in E. rewrite K1, K2 in E.
      cbn in E. injection E as <-. unfold optional_result. rewrite K1, K2. reflexivity.
    + pose proof (AG _ J D) as G. cbn [bkey] in G. rewrite G.
      rewrite (Q b I ltac:(cbn [bkey] in D; congruence) _ _ _ _ E). exact A4.
  - intros k p words H. destruct (words_bound k p words H) as (set & J & (W & _) & Q).
    destruct (text_eq_dec (tx k) (bkey b)) as [D|D].
    + specialize (SAME _ J D). subst b. cbn [initializeParameter] in E. destruct (getProperty m2 (tx k)) as [s|]; [|discriminate].
      destruct (W _ _ _ E) as (w & code & W1 & W2 & W3). exists s, w, code. auto.
    + destruct (A5 k p words H) as (s & w & code & S1 & S2 & S3 & S4). exists s, w, code.
      split; [rewrite <- S1; exact (AG _ J D)|]. split; [exact S2|]. split; [exact S3|].
      rewrite (Q b I ltac:(cbn [bkey] in D; congruence) _ _ _ _ E). exact S4.
  - intros k p H. destruct (vectors_bound k p H) as (f & J & P & Q).
    destruct (text_eq_dec (tx k) (bkey b)) as [D|D].
    + specialize (SAME _ J D). subst b. cbn [initializeParameter] in E. destruct (getPropertyAsDoubleVector rd m2 (tx k)) as [[xs|]| |]; try discriminate E.
      cbn [obind] in E. destruct (northToSouth xs) as [ys| |] eqn:NS; try discriminate E. cbn [obind] in E. unfold set_vec in E.
      destruct (Nat.eqb (List.length ys) 9) eqn:L; [|discriminate]. injection E as <-. apply PeanoNat.Nat.eqb_eq in L.
      exists xs. split; [reflexivity|]. rewrite P. apply directions_ok; assumption.
    + destruct (A6 k p H) as (xs & S1 & S2). exists xs. split.
      * rewrite <- S1. unfold getPropertyAsDoubleVector. pose proof (AG _ J D) as G. cbn [bkey] in G. rewrite G. reflexivity.
      * rewrite (Q b I ltac:(cbn [bkey] in D; congruence) _ _ _ _ E). exact S2.
  - destruct path_bound as [J Q]. destruct (text_eq_dec (tx "weatherfilepath") (bkey b)) as [D|D].
    + specialize (SAME _ J D). subst b. cbn [initializeParameter] in E. destruct (getProperty m2 (tx "weatherfilepath")) as [s|]; [|discriminate].
      unfold set_WeatherFilePath in E. injection E as <-. reflexivity.
    + pose proof (AG _ J D) as G. cbn [bkey] in G. rewrite G, A7. f_equal. symmetry.
      exact (Q b I ltac:(cbn [bkey] in D; congruence) _ _ _ _ E).
Qed.

(** Loading the second map is loading the first and then the one binding. *)
Lemma load_edited rd m1 m2 u u1 b : In b bs -> agree b m1 m2 -> takes rd m2 b ->
  ofold (init rd m1) bs u = Ok u1 -> forall v, ofold (init rd m2) bs u = Ok v <-> init rd m2 u1 b = Ok v.
Proof.
  intros I A K E v. apply load_iff_bindings in E. split.
  - intros F. apply load_iff_bindings in F. destruct (binding_succeeds rd m2 u v F b I u1) as (w & W).
    rewrite W. f_equal. eapply loaded_unique; [|exact F]. eapply edited; eassumption.
  - intros F. apply load_iff_bindings. eapply edited; eassumption.
Qed.

(** A binding looks at its own key only. *)
Lemma init_ext rd m m' v b : getProperty m (bkey b) = getProperty m' (bkey b) -> init rd m v b = init rd m' v b.
Proof.
  intros E. destruct b; cbn [bkey] in E; cbn [initializeParameter]; unfold getPropertyAsDouble, getPropertyAsInt, getPropertyAsBool, getPropertyAsDoubleVector;
  rewrite E; reflexivity.
Qed.
Lemma takes_ext rd m m' b : getProperty m (bkey b) = getProperty m' (bkey b) -> takes rd m b -> takes rd m' b.
Proof. intros E. destruct b; cbn [bkey takes] in *; rewrite ?E; auto. Qed.
Lemma get_lower m k k' : lower k = lower k' -> getProperty m k = getProperty m k'.
Proof. unfold getProperty. congruence. Qed.

Definition number_row (r : string * string) : bool :=
  match named (setter_name (fst r)) setters, find_binding (tx (snd r)) with
  | Some (S_num f), Some (BDouble _ _ f') => if num_eq_dec f f' then true else false
  | _, _ => false
  end.
Lemma number_rows : forallb number_row documented_numbers = true.
Proof. vm_compute. reflexivity. Qed.
Lemma find_key k b : find_binding k = Some b -> bkey b = k.
Proof. unfold find_binding. intros H. apply find_some in H. destruct H as [_ H]. apply text_eqb_eq in H. exact H. Qed.

Definition vector_row (r : string * string) : bool :=
  match named (fst r) vector_setters, find_binding (tx (snd r)) with
  | Some f, Some (BVec _ _ f') => if vec_eq_dec f f' then true else false
  | _, _ => false
  end.
Lemma vector_rows : forallb vector_row documented_vectors = true.
Proof. vm_compute. reflexivity. Qed.

Lemma setting_binding rd m key c : same_setting rd m key c ->
  exists b, In b bs /\ lower (bkey b) = lower (tx key) /\ takes rd m b /\
  (exists s, getProperty m (tx key) = Some s) /\
  forall st v, invoke c (with_model st v) = Some (do w <- init rd m v b; Ok (with_model st w)).
Proof.
  intros H. destruct H as [g key s x I G V|f key xs ys I G V|f key s I G|f key x I G|f key s z I G V].
  - pose proof number_rows as R. rewrite forallb_forall in R. specialize (R _ I). unfold number_row in R. cbn [fst snd] in R.
    destruct (named (setter_name g) setters) as [sl|] eqn:NM; [|discriminate]. destruct sl as [h|h|h| |h j]; try discriminate R.
    destruct (find_binding (tx key)) as [b|] eqn:F; [|discriminate]. destruct b as [k r h'|k r q|k r q|k r q|k r q]; try discriminate R.
    destruct (num_eq_dec h h') as [<-|]; [|discriminate]. pose proof (find_key _ _ F) as FK. cbn in FK. subst k. apply find_binding_in in F.
    eexists. split; [exact F|]. split; [reflexivity|]. split; [cbn; eauto|]. split; [eauto|].
    intros st v. cbn [invoke]. rewrite NM. cbn [option_map initializeParameter]. unfold getPropertyAsDouble. rewrite G, V. reflexivity.
  - pose proof vector_rows as R. rewrite forallb_forall in R. specialize (R _ I). unfold vector_row in R. cbn [fst snd] in R.
    destruct (named f vector_setters) as [h|] eqn:NM; [|discriminate].
    destruct (find_binding (tx key)) as [b|] eqn:F; [|discriminate]. destruct b as [k r q|k r q|k r q|k r h'|k r q]; try discriminate R.
    destruct (vec_eq_dec h h') as [<-|]; [|discriminate]. pose proof (find_key _ _ F) as FK. cbn in FK. apply find_binding_in in F.
    assert (LK : lower k = lower (tx key)) by congruence.
    eexists. split; [exact F|]. split; [exact LK|]. split; [exact Logic.I|].
    split; [unfold getPropertyAsDoubleVector in G; destruct (getProperty m (tx key)); [eauto|discriminate]|].
    intros st v. cbn [invoke]. rewrite NM. cbn [option_map initializeParameter]. 
    assert (getPropertyAsDoubleVector rd m k = Ok (Some xs)) as ->.
    { rewrite <- G. unfold getPropertyAsDoubleVector. rewrite (get_lower m k (tx key) LK). reflexivity. }
    cbn [obind]. pose proof V as V'. destruct V as (L1 & L2 & L3). destruct (directions_nine _ xs L1) as (zs & Z1 & Z2).
    rewrite Z1. cbn [obind]. rewrite (directions_unique _ xs zs ys (directions_ok _ _ _ Z1 Z2) V'). reflexivity.
  - unfold documented_texts in I. cbn [In] in I.
    destruct I as [I|[I|[I|[I|[I|[]]]]]]; apply pair_equal_spec in I; destruct I as [<- <-];
    (match type of G with getProperty _ (tx ?k) = _ =>
       let b := eval vm_compute in (find_binding (tx k)) in idtac end);
    [exists (BText (tx "bemtype") true set_BemType)|exists (BText (tx "dhwfueltype") true set_DhwEnergyCarrier)
    |exists (BText (tx "heatingfueltype") true set_HeatingEnergyCarrier)|exists (BText (tx "ventilationtype") true set_VentilationType)
    |exists (BText (tx "weatherfilepath") true set_WeatherFilePath)];
    (split; [match goal with |- In ?b _ => apply (find_binding_in (bkey b)); vm_compute; reflexivity end
            |split; [reflexivity|split; [exact Logic.I|split; [eauto|intros st v; cbn [initializeParameter]; rewrite G; reflexivity]]]]).
  - unfold documented_flags in I. cbn [In] in I. destruct I as [I|[I|[]]]; apply pair_equal_spec in I; destruct I as [<- <-];
    [exists (BBool (tx "forcedaircooling") false set_cl_forcedAir)|exists (BBool (tx "forcedairheating") false set_ht_forcedAir)];
    (split; [match goal with |- In ?b _ => apply (find_binding_in (bkey b)); vm_compute; reflexivity end
            |split; [reflexivity|split; [exists x; exact G|split; [eauto|intros st v; cbn [initializeParameter]; unfold getPropertyAsBool; rewrite G; destruct x; reflexivity]]]]).
  - unfold documented_integers in I. cbn [In] in I. destruct I as [I|[]]; apply pair_equal_spec in I; destruct I as [<- <-].
    exists (BInt (tx "vent_rate_flag") false set_ve_vent_rate_flag).
    split; [match goal with |- In ?b _ => apply (find_binding_in (bkey b)); vm_compute; reflexivity end
            |split; [reflexivity|split; [exists s, z; auto|split; [eauto|intros st v; cbn [initializeParameter]; unfold getPropertyAsInt; rewrite G, V; reflexivity]]]].
Qed.

Lemma setting_ext rd m m' key c : getProperty m' (tx key) = getProperty m (tx key) -> same_setting rd m key c -> same_setting rd m' key c.
Proof.
  intros E H. destruct H; econstructor; try eassumption; try (rewrite E; assumption).
  unfold getPropertyAsDoubleVector in *. rewrite E. assumption.
Qed.

Lemma settings_load rd m2 st : forall settings m1 u1,
  (forall key c, In (key, c) settings -> same_setting rd m2 key c) ->
  (forall k, (forall key c, In (key, c) settings -> ~ same_word k (tx key)) -> getProperty m2 k = getProperty m1 k) ->
  ofold (init rd m1) bs (us_model st) = Ok u1 ->
  forall u2, ofold (init rd m2) bs (us_model st) = Ok u2 <-> all_calls (map snd settings) (with_model st u1) = Some (Ok (with_model st u2)).
Proof.
  induction settings as [|[key c] settings IH]; intros m1 u1 S A E u2.
  - cbn [map all_calls]. assert (ofold (init rd m2) bs (us_model st) = Ok u1) as ->.
    { rewrite <- E.
      assert (X : forall l u, ofold (init rd m2) l u = ofold (init rd m1) l u).
      { induction l as [|b l IHl]; intros u; [reflexivity|]. cbn [ofold]. rewrite (init_ext rd m2 m1) by (apply A; intros ? ? []).
        destruct (init rd m1 u b); cbn; auto. }
      apply X. }
    split; [intros H; injection H as ->; reflexivity|intros H]. injection H as H. rewrite H. reflexivity.
  - destruct (setting_binding rd m2 key c (S key c (or_introl eq_refl))) as (b & I & LK & TK & (s & G) & INV).
    pose (m' := putProperty m1 (tx key) s).
    assert (GK : forall k, same_word (tx key) k -> getProperty m' k = Some s) by (intros k W; apply (get_put m1 (tx key) s k); exact W).
    assert (GO : forall k, ~ same_word (tx key) k -> getProperty m' k = getProperty m1 k) by (intros k W; apply (get_put m1 (tx key) s k); exact W).
    assert (GB : getProperty m2 (bkey b) = getProperty m' (bkey b)).
    { rewrite (get_lower m2 _ _ LK), G. symmetry. apply GK. apply same_word_lower. congruence. }
    assert (AG : agree b m1 m').
    { intros k D. apply GO. rewrite same_word_lower. congruence. }
    pose proof (takes_ext rd m2 m' b GB TK) as TK'.
    pose proof (load_edited rd m1 m' _ u1 b I AG TK' E) as LE.
    cbn [map snd all_calls]. rewrite (INV st u1). rewrite (init_ext rd m2 m' u1 b GB).
    destruct (init rd m' u1 b) as [w|e|] eqn:W.
    + cbn [obind]. apply (IH m' w).
      * intros k d J. apply S. right. exact J.
      * intros k J. destruct (same_word_dec (tx key) k) as [D|D].
        -- rewrite (GK k D). rewrite <- G. apply get_lower. symmetry. apply same_word_lower. exact D.
        -- rewrite (GO k D). apply A. intros k' d [X|X]; [injection X as <- <-; intros C; apply D, same_word_sym, C|exact (J _ _ X)].
      * apply LE. reflexivity.
    + cbn [obind]. split; [|discriminate]. intros F. exfalso. apply load_iff_bindings in F.
      destruct (binding_succeeds rd m2 _ _ F b I u1) as (w & W'). rewrite (init_ext rd m2 m' u1 b GB) in W'. congruence.
    + cbn [obind]. split; [|discriminate]. intros F. exfalso. apply load_iff_bindings in F.
      destruct (binding_succeeds rd m2 _ _ F b I u1) as (w & W'). rewrite (init_ext rd m2 m' u1 b GB) in W'. congruence.
Qed.

Lemma C75_settings_l rd file1 file2 m1 m2 st u1 settings :
  propertiesOf file1 = Ok m1 -> propertiesOf file2 = Ok m2 ->
  (forall key c, In (key, c) settings -> same_setting rd m2 key c) ->
  (forall k, (forall key c, In (key, c) settings -> ~ same_word k (tx key)) -> getProperty m2 k = getProperty m1 k) ->
  loadBuilding rd file1 (us_model st) = Ok u1 ->
  forall u2, loadBuilding rd file2 (us_model st) = Ok u2 <-> all_calls (map snd settings) (with_model st u1) = Some (Ok (with_model st u2)).
Proof.
  intros P1 P2 S A E u2. unfold loadBuilding in *. rewrite P1 in E. rewrite P2. cbn [obind] in *. 
  rewrite fold_bindings in E |- *. exact (settings_load rd m2 st settings m1 u1 S A E u2).
Qed.

(** Parameters that are read only in the unit tests. *)
Lemma unread key : In key only_in_tests -> forall b, In b bs -> lower (bkey b) <> lower (tx key).
Proof.
  assert (F : forallb (fun key => forallb (fun k => negb (text_eqb (lower k) (lower (tx key)))) (map bkey bs)) only_in_tests = true) by (vm_compute; reflexivity).
  intros I b J. rewrite forallb_forall in F. specialize (F _ I). rewrite forallb_forall in F. specialize (F _ (in_map bkey _ _ J)).
  intros C. rewrite C, text_eqb_refl in F. discriminate.
Qed.
Lemma C76_unread_l rd file1 file2 m1 m2 (u : building_model T) :
  propertiesOf file1 = Ok m1 -> propertiesOf file2 = Ok m2 ->
  (forall k, (forall key, In key only_in_tests -> ~ same_word k (tx key)) -> getProperty m2 k = getProperty m1 k) ->
  loadBuilding rd file2 u = loadBuilding rd file1 u.
Proof.
  intros P1 P2 A. unfold loadBuilding. rewrite P1, P2. cbn [obind]. rewrite !fold_bindings.
  assert (X : forall l, (forall b, In b l -> In b bs) -> forall u, ofold (init rd m2) l u = ofold (init rd m1) l u).
  { induction l as [|b l IHl]; intros J v; [reflexivity|]. cbn [ofold]. rewrite (init_ext rd m2 m1).
    - destruct (init rd m1 v b); cbn; auto. apply IHl. intros. apply J. right. assumption.
    - apply A. intros key I C. apply (unread key I b (J b (or_introl eq_refl))). apply same_word_lower. exact C. }
  apply X. auto.
Qed.

Definition required_row (key : string) : bool :=
  existsb (fun key' => String.eqb key key') only_in_tests ||
  existsb (fun k => text_eqb (lower (tx k)) (lower (tx key)))
    ("weatherfilepath"%string :: map fst (@required_numbers T) ++ map (fun r => fst (fst r)) (@required_words T) ++ map fst (@required_vectors T)).
Lemma required_rows : forallb required_row documented_required = true.
Proof. vm_compute. reflexivity. Qed.

Lemma C76_required_l rd file m (u u' : building_model T) key : In key documented_required -> ~ In key only_in_tests ->
  propertiesOf file = Ok m -> loadBuilding rd file u = Ok u' -> exists s, getProperty m (tx key) = Some s.
Proof.
  intros I D P E. pose proof required_rows as R. rewrite forallb_forall in R. specialize (R _ I). unfold required_row in R.
  apply Bool.orb_prop in R. destruct R as [R|R].
  - exfalso. apply existsb_exists in R. destruct R as (k & K1 & K2). apply String.eqb_eq in K2. subst. contradiction.
  - apply C48_one_file_l in E. destruct E as (m' & P' & (A1&A2&A3&A4&A5&A6&A7)). assert (m' = m) as -> by congruence.
    apply existsb_exists in R. destruct R as (k & K1 & K2). apply text_eqb_eq in K2.
    rewrite <- (get_lower m _ _ K2). destruct K1 as [<-|K1]; [eauto|]. apply in_app_or in K1. destruct K1 as [K1|K1].
    + apply in_map_iff in K1. destruct K1 as ([k' p] & <- & K1). destruct (A1 _ _ K1) as (s & S & _). eauto.
    + apply in_app_or in K1. destruct K1 as [K1|K1]; apply in_map_iff in K1; destruct K1 as (row & <- & K1).
      * destruct row as [[k p] w]. destruct (A5 _ _ _ K1) as (s & _ & _ & S & _). eauto.
      * destruct row as [k p]. destruct (A6 _ _ K1) as (xs & S & _). unfold getPropertyAsDoubleVector in S. cbn [fst].
        destruct (getProperty m (tx k)); [eauto|discriminate].
Qed.

Lemma same_words_code words s w w' (c c' : Z) : nodupb (map (fun r => lower (tx (fst r))) words) = true ->
  In (w, c) words -> In (w', c') words -> same_word s (tx w) -> same_word s (tx w') -> c = c'.
Proof.
  intros ND I I' W W'. apply nodupb_ok in ND.
  pose proof (nodup_same (fun r : string * Z => lower (tx (fst r))) words ND (w, c) (w', c') I I') as Q. cbn [fst] in Q.
  assert ((w, c) = (w', c')) as E by (apply Q; apply (same_word_codes s); assumption). congruence.
Qed.
Lemma required_words_nodup k p words : In (k, p, words) (@required_words T) -> nodupb (map (fun r => lower (tx (fst r))) words) = true.
Proof.
  assert (F : forallb (fun r : string * (building_model T -> T) * list (string * Z) => nodupb (map (fun r => lower (tx (fst r))) (snd r))) required_words = true) by (vm_compute; reflexivity).
  intros I. rewrite forallb_forall in F. exact (F _ I).
Qed.

(** Two maps that agree but for one key give buildings that agree but for one parameter. *)
Lemma loads_agree rd m1 m2 (u u1 u2 : building_model T) key b : In b bs -> bkey b = tx key -> agree b m1 m2 ->
  loaded rd (getProperty m1) (getPropertyAsDoubleVector rd m1) u u1 ->
  loaded rd (getProperty m2) (getPropertyAsDoubleVector rd m2) u u2 -> unchanged_except key u1 u2.
Proof.
  intros I K A (A1&A2&A3&A4&A5&A6&A7) (B1&B2&B3&B4&B5&B6&B7).
  assert (TXI : forall k, k <> key -> tx k <> tx key).
  { intros k D C. apply D. rewrite <- (string_of_list_ascii_of_string k), <- (string_of_list_ascii_of_string key).
    unfold tx in C. rewrite C. reflexivity. }
  assert (AG : forall b' k, In b' bs -> bkey b' = tx k -> k <> key -> getProperty m2 (tx k) = getProperty m1 (tx k)).
  { intros b' k I' K' D. rewrite <- K'. apply A. apply other_binding; [assumption|assumption|]. rewrite K, K'. apply TXI. exact D. }
  split; [|split; [|split; [|split; [|split]]]].
  - intros k p H D. apply in_app_or in H. destruct H as [H|H].
    + destruct (required_numbers_bound k p H) as (f & J & _). destruct (A1 k p H) as (s & S1 & S2). destruct (B1 k p H) as (s' & S1' & S2').
      rewrite (AG _ k J eq_refl D) in S1'. congruence.
    + destruct (optional_numbers_bound k p H) as (f & J & _). pose proof (A2 k p H) as Q. pose proof (B2 k p H) as Q'.
      rewrite (AG _ k J eq_refl D) in Q'. unfold optional_result in Q, Q'. destruct (getProperty m1 (tx k)); [|congruence].
      destruct (rd_stod rd t); [congruence|congruence|contradiction].
  - intros k p H D. destruct (flags_bound k p H) as (f & J & _ & _). pose proof (A3 k p H) as Q. pose proof (B3 k p H) as Q'.
    rewrite (AG _ k J eq_refl D) in Q'.
    destruct Q as [[X Y]|[[X Y]|[X [Y Z]]]]; destruct Q' as [[X' Y']|[[X' Y']|[X' [Y' Z']]]]; try congruence; rewrite X in X'; vm_compute in X'; discriminate.
  - intros k p words H D. destruct (words_bound k p words H) as (set & J & _ & _).
    destruct (A5 k p words H) as (s & w & c & S1 & S2 & S3 & S4). destruct (B5 k p words H) as (s' & w' & c' & S1' & S2' & S3' & S4').
    rewrite (AG _ k J eq_refl D) in S1'. assert (s' = s) as -> by congruence.
    rewrite S4, S4'. f_equal. eapply same_words_code; [exact (required_words_nodup _ _ _ H)|eassumption..].
  - intros k p H D. destruct (vectors_bound k p H) as (f & J & _ & _). destruct (A6 k p H) as (xs & S1 & S2). destruct (B6 k p H) as (xs' & S1' & S2').
    unfold getPropertyAsDoubleVector in S1, S1'. rewrite (AG _ k J eq_refl D) in S1'. assert (xs' = xs) as -> by congruence.
    eapply directions_unique; eassumption.
  - unfold optional_integer in *. intros D. destruct integer_bound as [J _]. rewrite (AG _ "vent_rate_flag"%string J eq_refl D) in B4.
    unfold optional_result in A4, B4. destruct (getProperty m1 _); [|congruence]. destruct (rd_stoi rd t); [congruence|congruence|contradiction].
  - intros D. destruct path_bound as [J _]. rewrite (AG _ "weatherfilepath"%string J eq_refl D) in B7. congruence.
Qed.

Definition optional_row (key : string) : bool :=
  existsb (String.eqb key) documented_required ||
  match find_binding (tx key) with Some (BDouble _ false _) => existsb (String.eqb key) (map fst (@optional_numbers T)) | _ => false end.
Lemma optional_rows : forallb optional_row (map snd documented_numbers) = true.
Proof. vm_compute. reflexivity. Qed.

Lemma C76_optional_l rd file1 file2 m1 m2 (u u1 : building_model T) g key :
  In (g, key) documented_numbers -> ~ In key documented_required ->
  propertiesOf file1 = Ok m1 -> propertiesOf file2 = Ok m2 -> loadBuilding rd file1 u = Ok u1 ->
  (forall k, ~ same_word k (tx key) -> getProperty m2 k = getProperty m1 k) -> getProperty m2 (tx key) = None ->
  exists u2 p, loadBuilding rd file2 u = Ok u2 /\ In (key, p) optional_numbers /\ p u2 = p u /\ unchanged_except key u1 u2.
Proof.
  intros I D P1 P2 E A G. pose proof optional_rows as R. rewrite forallb_forall in R. specialize (R key (in_map snd _ _ I)). unfold optional_row in R.
  apply Bool.orb_prop in R. destruct R as [R|R].
  { exfalso. apply existsb_exists in R. destruct R as (k & K1 & K2). apply String.eqb_eq in K2. subst. contradiction. }
  destruct (find_binding (tx key)) as [b|] eqn:F; [|discriminate]. destruct b as [k r f|k r q|k r q|k r q|k r q]; try discriminate R.
  destruct r; [discriminate|]. pose proof (find_key _ _ F) as FK. cbn in FK. subst k. apply find_binding_in in F.
  apply existsb_exists in R. destruct R as (k & K1 & K2). apply String.eqb_eq in K2. subst k.
  apply in_map_iff in K1. destruct K1 as ([k p] & K0 & K1). cbn in K0. subst k.
  assert (AG : agree (BDouble (tx key) false f) m1 m2). { intros k Q. apply A. rewrite same_word_lower. exact Q. }
  unfold loadBuilding in *. rewrite P1 in E. rewrite P2. cbn [obind] in *. rewrite fold_bindings in E |- *.
  assert (S : forall b, In b bs -> forall v, exists v', init rd m2 v b = Ok v').
  { intros b J v. destruct (text_eq_dec (bkey b) (tx key)) as [Q|Q].
    - assert (b = BDouble (tx key) false f) as -> by (apply unique_binding; [assumption|assumption|cbn [bkey]; rewrite Q; reflexivity]).
      exists v. cbn [initializeParameter]. unfold getPropertyAsDouble. rewrite G. reflexivity.
    - apply load_iff_bindings in E. destruct (binding_succeeds rd m1 _ _ E b J v) as (v' & V). exists v'. rewrite <- V. apply init_ext.
      apply AG. apply other_binding; assumption. }
  destruct (ofold_succeeds rd m2 bs S u) as (u2 & U2). exists u2, p. split; [exact U2|]. split; [exact K1|].
  apply load_iff_bindings in U2. apply load_iff_bindings in E. split.
  - destruct U2 as (_ & B2 & _). specialize (B2 _ _ K1). rewrite G in B2. exact B2.
  - eapply loads_agree; [exact F|reflexivity|exact AG|exact E|exact U2].
Qed.
End Files.
