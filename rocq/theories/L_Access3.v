(** Lemmas about histories of accessor calls. *)
From Coq Require Import Ascii String Lia.
From Verif Require Import Base Num Text M_Text M_Properties M_Params M_UserModel.
From Verif Require Import S_Text S_Loading L_Text L_UserModel L_Loading L_Loading2 M_Access S_Access L_Access L_Access2.
Open Scope list_scope.

Lemma after_cons {C V} (gives : C -> V -> Prop) b b' c rest a :
  value_after gives b' rest a -> gives c b' \/ ((forall y, ~ gives c y) /\ b' = b) -> value_after gives b (c :: rest) a.
Proof.
  intros H G. destruct H as [past c' rest x X1 X2|calls X].
  - apply (after_given _ _ (c :: past)); assumption.
  - destruct G as [G|[G ->]].
    + apply (after_given _ _ [] c); assumption.
    + apply after_none. intros c' y [<-|I]; [apply G|apply X; exact I].
Qed.

Lemma after_unique {C V} (gives : C -> V -> Prop) : (forall c x y, gives c x -> gives c y -> x = y) ->
  forall b calls x y, value_after gives b calls x -> value_after gives b calls y -> x = y.
Proof.
  intros F b calls x y X Y. destruct X as [p c r x A1 A2|l A].
  - inversion Y as [p' c' r' y' B1 B2 E|l B E]; subst.
    + apply app_eq_app in E. destruct E as (l & [[E1 E2]|[E1 E2]]).
      * destruct l as [|z l].
        -- cbn in E2. injection E2 as -> ->. eauto.
        -- cbn in E2. injection E2 as -> ->. exfalso. first [solve [apply (A2 c' y); [apply in_or_app; right; left; reflexivity|exact B1]]|solve [apply (B2 c x); [apply in_or_app; right; left; reflexivity|exact A1]]].
      * destruct l as [|z l].
        -- cbn in E2. injection E2 as -> ->. eauto.
        -- cbn in E2. injection E2 as -> ->. exfalso. first [solve [apply (B2 c x); [apply in_or_app; right; left; reflexivity|exact A1]]|solve [apply (A2 c' y); [apply in_or_app; right; left; reflexivity|exact B1]]].
    + exfalso. apply (B c x); [apply in_or_app; right; left; reflexivity|exact A1].
  - inversion Y as [p' c' r' y' B1 B2 E|l' B E]; subst; [|reflexivity].
    exfalso. apply (A c' y); [apply in_or_app; right; left; reflexivity|exact B1].
Qed.

Section History.
Context {T : Type} {N : Num T}.
Implicit Types u : user_state T.

Lemma getter_defined g s u : nine u -> In (g, s) getters -> exists x, read_slot s u = Ok x.
Proof.
  intros H9 I. destruct s as [h|h|h| |h j]; cbn [read_slot]; eauto.
  pose proof getters_in_range as R. rewrite forallb_forall in R. specialize (R _ I). cbn [snd] in R. apply PeanoNat.Nat.ltb_lt in R.
  unfold vget. destruct (nth_error _ j) as [x|] eqn:E; [eauto|]. apply nth_error_None in E. rewrite H9 in E. lia.
Qed.

Lemma calls_run calls : forall u, nine u -> Forall known calls ->
  exists u', run_calls calls u = Some (Ok u') /\ nine u' /\
  (forall g s, In (g, s) getters -> exists b a, read_slot s u = Ok b /\ read_slot s u' = Ok a /\ value_after (gives g) b calls a) /\
  value_after (fun c x => c = CText "setScheduleFilePath" x) (us_schedule u) calls (us_schedule u') /\
  value_after (fun c x => c = CText "setWeatherFilePath" x) (bm_weatherFilePath (us_model u)) calls (bm_weatherFilePath (us_model u')) /\
  value_after (fun c x => c = CBool "setForcedAirCooling" x) (cl_forcedAir (pa_cooling (bm_params (us_model u)))) calls (cl_forcedAir (pa_cooling (bm_params (us_model u')))) /\
  value_after (fun c x => c = CBool "setForcedAirHeating" x) (ht_forcedAir (pa_heating (bm_params (us_model u)))) calls (ht_forcedAir (pa_heating (bm_params (us_model u')))).
Proof.
  induction calls as [|c calls IH]; intros u H9 K.
  - exists u. split; [reflexivity|]. split; [exact H9|]. split.
    + intros g s I. destruct (getter_defined g s u H9 I) as (x & X). exists x, x. split; [exact X|]. split; [exact X|].
      apply after_none. intros c y [].
    + repeat split; apply after_none; intros c y [].
  - inversion K as [|? ? K1 K2]; subst. destruct (call_step c u H9 K1) as (u1 & E1 & H1 & R1 & G1).
    destruct (IH u1 H1 K2) as (u' & E2 & H2 & G2 & S1 & S2 & S3 & S4).
    exists u'. split; [|split; [exact H2|split]].
    + cbn [run_calls]. destruct E1 as [->|(-> & e & ->)]; exact E2.
    + intros g s I. destruct (G2 g s I) as (b & a & B & A & V). destruct (getter_defined g s u H9 I) as (x & X).
      exists x, a. split; [exact X|]. split; [exact A|]. eapply after_cons; [exact V|].
      destruct (G1 g s I) as [(y & Y1 & Y2)|(Y1 & Y2)].
      * left. assert (b = y) as -> by congruence. exact Y1.
      * right. split; [exact Y1|congruence].
    + unfold rest_of in R1.
      assert (Q : forall (f : string) (x : text), known (CText (T := T) f x) -> In f ["setWeatherFilePath"; "setBemType"; "setDhwEnergyCarrier"; "setHeatingEnergyCarrier"; "setScheduleFilePath"; "setVentilationType"]%string)
        by (intros f x Q; exact Q).
      assert (Q' : forall (f : string) (x : bool), known (CBool (T := T) f x) -> In f ["setForcedAirCooling"; "setForcedAirHeating"]%string)
        by (intros f x Q'; exact Q').
      destruct c as [f x|f x|f x|f x|f x].
      1, 2, 5: cbn in R1; injection R1 as R1 R2 R3 R4; (split; [|split; [|split]]); (eapply after_cons; [eassumption|right; split; [discriminate|assumption]]).
      * specialize (Q f x K1). cbn in Q.
        destruct Q as [<-|[<-|[<-|[<-|[<-|[<-|[]]]]]]]; cbn in R1; injection R1 as R1 R2 R3 R4; (split; [|split; [|split]]);
        (eapply after_cons; [eassumption|first [right; split; [discriminate|assumption]|left; f_equal; congruence]]).
      * specialize (Q' f x K1). cbn in Q'.
        destruct Q' as [<-|[<-|[]]]; cbn in R1; injection R1 as R1 R2 R3 R4; (split; [|split; [|split]]);
        (eapply after_cons; [eassumption|first [right; split; [discriminate|assumption]|left; f_equal; congruence]]).
Qed.

(** A call gives a parameter one value at most. *)
Lemma gives_one (c : call T) g x y : gives g c x -> gives g c y -> x = y.
Proof.
  intros X Y. destruct X as [x|x E|v d xs x V1 V2 V3 V4|f words s w code W1 W2 W3|z E].
  - inversion Y; subst; [reflexivity|]. reflexivity.
  - inversion Y; subst; reflexivity.
  - inversion Y as [| |v' d' xs' x' V1' V2' V3' V4' E1 E2| |]; subst.
    pose proof (place_of v d V1) as P1. pose proof (place_of v' d' V1') as P2. rewrite E1, V2' in P2. congruence.
  - inversion Y as [| | |f' words' s' w' code' W1' W2' W3' E1 E2|]; subst.
    assert (words' = words) as ->.
    { unfold word_setters in W1, W1'. cbn [In] in W1, W1'.
      destruct W1 as [W1|[W1|[W1|[W1|[]]]]]; destruct W1' as [W1'|[W1'|[W1'|[W1'|[]]]]]; congruence. }
    pose proof (same_word_codes s w w' W3 W3') as L. f_equal.
    unfold word_setters in W1. cbn [In] in W1.
    destruct W1 as [W1|[W1|[W1|[W1|[]]]]]; injection W1 as <- <- <-; cbn [In] in W2, W2'; clear - L W2 W2';
    repeat match goal with H : _ \/ _ |- _ => destruct H | H : False |- _ => destruct H end;
    repeat match goal with H : (_, _) = (_, _) |- _ => injection H; clear H; intros; subst end; try reflexivity; vm_compute in L; discriminate.
  - inversion Y; subst; reflexivity.
Qed.

Lemma C74_calls_l calls u : nine_each u -> Forall known calls ->
  exists u', run_calls calls u = Some (Ok u') /\ nine_each u' /\
  (forall g, In g (map fst getters) ->
     exists before after, read g u = Some (Ok before) /\ read g u' = Some (Ok after) /\ value_after (gives g) before calls after) /\
  value_after (fun c x => c = CText "setScheduleFilePath" x) (us_schedule u) calls (us_schedule u') /\
  value_after (fun c x => c = CText "setWeatherFilePath" x) (bm_weatherFilePath (us_model u)) calls (bm_weatherFilePath (us_model u')) /\
  value_after (fun c x => c = CBool "setForcedAirCooling" x) (cl_forcedAir (pa_cooling (bm_params (us_model u)))) calls (cl_forcedAir (pa_cooling (bm_params (us_model u')))) /\
  value_after (fun c x => c = CBool "setForcedAirHeating" x) (ht_forcedAir (pa_heating (bm_params (us_model u)))) calls (ht_forcedAir (pa_heating (bm_params (us_model u')))).
Proof.
  intros H9 K. apply nine_iff in H9. destruct (calls_run calls u H9 K) as (u' & E & H9' & G & S).
  exists u'. split; [exact E|]. split; [apply nine_iff; exact H9'|]. split; [|exact S].
  intros g I. destruct (named_in g getters I) as (s & N1 & N2). destruct (G g s N2) as (b & a & B & A & V).
  exists b, a. unfold read. rewrite N1. cbn [option_map]. rewrite B, A. auto.
Qed.

Lemma C74_one_l g before (calls : list (call T)) x y : value_after (gives g) before calls x -> value_after (gives g) before calls y -> x = y.
Proof. apply after_unique. intros c a b. apply gives_one. Qed.

(** Every setter of a number, vector or word gives some parameter a value; every getter has a
    setter that gives it one. *)
Lemma C74_paired_l g : In g (map fst getters) ->
  (forall x, @known T N (CNumber (setter_name g) x)) \/ In g (map (fun r => snd (fst r)) word_setters) \/ g = "vent_rate_flag"%string.
Proof.
  intros I.
  assert (F : forallb (fun g => existsb (String.eqb (setter_name g)) (map fst setters) ||
      existsb (String.eqb g) ("vent_rate_flag"%string :: map (fun r => snd (fst r)) word_setters))%bool (map fst getters) = true)
    by (vm_compute; reflexivity).
  rewrite forallb_forall in F. specialize (F g I). apply Bool.orb_prop in F. destruct F as [F|F]; apply existsb_exists in F; destruct F as (h & H1 & H2);
  apply String.eqb_eq in H2; subst h.
  - left. intros x. exact H1.
  - right. destruct H1 as [<-|H1]; [right; reflexivity|left; exact H1].
Qed.
End History.
