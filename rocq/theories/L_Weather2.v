(** Lemmas about the weather state of UserModel: histories. *)
From Coq Require Import Ascii String ZArith Lia.
From Verif Require Import Base Num Text M_Text M_TimeFrame M_Params M_Properties M_UserModel M_Epw M_Solar M_IsoText M_Weather S_Text S_Epw S_Solar S_Weather S_History L_Text L_Properties L_HourlyShape L_Epw L_Epw2 L_Solar L_Solar2 L_Solar3 L_Solar5 L_IsoText L_IsoText2 L_Weather.
Open Scope nat_scope.
Open Scope list_scope.

(** Unfold the definitions of the model before the bind of outcomes: evaluating the bind would run the calendar. *)
Local Strategy 1000 [obind].
Section Machine.
Context {T : Type} {N : Num T}.
Variable fmt : T -> text.
Variable rd : reader T.

Definition sound (u : user T) : Prop :=
  length (ep_data (us_edata u)) = 7 /\ us_weather u < length (us_heap u) /\
  (forall p, us_location u = Some p -> p < length (us_heap u)) /\
  (forall k p, In (k, p) (us_cache u) -> p < length (us_heap u)).

Lemma new_sound : forall b, sound (newUser b).
Proof. intros b. unfold sound, newUser. cbn. split; [reflexivity|]. split; [lia|]. split; [discriminate|intros k p []]. Qed.

Lemma vset_inv : forall A (v : list A) i x v', vset v i x = Ok v' -> v' = upd v i x /\ i < length v.
Proof. intros A v i x v' H. unfold vset in H. destruct (Nat.ltb_spec i (length v)) as [L|L]; [|discriminate]. split; [congruence|exact L]. Qed.

Lemma storeSolar_inv : forall u u', storeSolar fmt rd u = Ok u' -> exists w, initializeSolar fmt rd (us_edata u) = Ok w /\
  us_weather u < length (us_heap u) /\
  u' = mkUser (us_building u) (us_dataFile u) (us_valid u) (us_cache u) (us_weather u) (us_location u) (us_edata u) (upd (us_heap u) (us_weather u) w).
Proof.
  intros u u' H. unfold storeSolar in H. destruct (initializeSolar fmt rd (us_edata u)) as [w| |] eqn:E; [cbn [obind] in H|discriminate H|discriminate H].
  destruct (vset (us_heap u) (us_weather u) w) as [h| |] eqn:V; [cbn [obind] in H|discriminate H|discriminate H]. apply vset_inv in V. destruct V as [-> L].
  exists w. split; [reflexivity|]. split; [exact L|]. congruence.
Qed.

(** What a weather file load does. *)
Lemma loadWeather_inv : forall files u u', loadWeather fmt rd files u = Ok u' -> exists e w,
  loadFile rd (files (weatherFile files u)) (us_edata u) = Ok e /\ initializeSolar fmt rd e = Ok w /\ us_weather u < length (us_heap u) /\
  u' = mkUser (us_building u) (us_dataFile u) (if exists_file files (weatherFile files u) then us_valid u else Some false)
         (us_cache u) (us_weather u) (Some (us_weather u)) e (upd (us_heap u) (us_weather u) w).
Proof.
  intros files u u' H. unfold loadWeather in H. cbv zeta in H. set (f := weatherFile files u) in *.
  set (u1 := if exists_file files f then u else set_valid false u) in *.
  assert (E1 : us_edata u1 = us_edata u) by (subst u1; destruct (exists_file files f); reflexivity).
  rewrite E1 in H. destruct (loadFile rd (files f) (us_edata u)) as [e| |] eqn:E; [cbn [obind] in H|discriminate H|discriminate H].
  destruct (storeSolar fmt rd (set_edata e u1)) as [u2| |] eqn:S; [cbn [obind] in H|discriminate H|discriminate H].
  apply storeSolar_inv in S. destruct S as (w&Iw&L&->). exists e, w. split; [reflexivity|]. cbn [us_edata set_edata] in Iw. split; [exact Iw|].
  assert (u' = place (mkUser (us_building (set_edata e u1)) (us_dataFile (set_edata e u1)) (us_valid (set_edata e u1)) (us_cache (set_edata e u1)) (us_weather (set_edata e u1)) (us_location (set_edata e u1)) (us_edata (set_edata e u1)) (upd (us_heap (set_edata e u1)) (us_weather (set_edata e u1)) w))) as -> by congruence.
  subst u1. destruct (exists_file files f); (split; [exact L|reflexivity]).
Qed.

(** What a block load does. *)
Lemma loadBlock_inv : forall size values u u', loadWeatherBlock fmt rd size values u = Ok u' -> exists lat lon,
  nth_error values 0 = Some lat /\ nth_error values 1 = Some lon /\
  match cache_find (lat, lon) (us_cache u) with
  | Some p => u' = mkUser (us_building u) (us_dataFile u) (Some true) (us_cache u) p (Some p) (us_edata u) (us_heap u)
  | None => exists e w, loadBlock size values (us_edata u) = Ok e /\ initializeSolar fmt rd e = Ok w /\
      u' = mkUser (us_building u) (us_dataFile u) (Some true) (((lat, lon), length (us_heap u)) :: us_cache u) (length (us_heap u))
             (Some (length (us_heap u))) e (us_heap u ++ [w])
  end.
Proof.
  intros size values u u' H. unfold loadWeatherBlock, vget in H.
  destruct (nth_error values 0) as [lat|]; [|discriminate]. cbn [obind] in H.
  destruct (nth_error values 1) as [lon|]; [|discriminate]. cbn [obind] in H. exists lat, lon. split; [reflexivity|]. split; [reflexivity|].
  destruct (cache_find (lat, lon) (us_cache u)) as [p|].
  - cbn [obind] in H. assert (F : forall a b : user T, Ok a = Ok b -> b = a) by (intros; congruence). apply F in H. exact H.
  - cbv zeta in H. cbn [us_edata] in H. destruct (loadBlock size values (us_edata u)) as [e| |] eqn:E; [cbn [obind] in H|discriminate H|discriminate H].
    destruct (storeSolar _ _ _) as [u2| |] eqn:S; [cbn [obind] in H|discriminate H|discriminate H].
    apply storeSolar_inv in S. destruct S as (w&Iw&_&->). exists e, w. split; [reflexivity|]. split; [exact Iw|].
    assert (F : forall a b : user T, Ok a = Ok b -> b = a) by (intros; congruence). apply F in H. rewrite H.
    unfold set_valid, place, set_edata. cbn [us_building us_dataFile us_valid us_cache us_weather us_location us_edata us_heap].
    rewrite upd_app. reflexivity.
Qed.
Lemma loadBlock_made : forall size values u lat lon, nth_error values 0 = Some lat -> nth_error values 1 = Some lon ->
  match cache_find (lat, lon) (us_cache u) with
  | Some p => loadWeatherBlock fmt rd size values u = Ok (mkUser (us_building u) (us_dataFile u) (Some true) (us_cache u) p (Some p) (us_edata u) (us_heap u))
  | None => forall e w, loadBlock size values (us_edata u) = Ok e -> initializeSolar fmt rd e = Ok w ->
      loadWeatherBlock fmt rd size values u = Ok (mkUser (us_building u) (us_dataFile u) (Some true) (((lat, lon), length (us_heap u)) :: us_cache u) (length (us_heap u))
             (Some (length (us_heap u))) e (us_heap u ++ [w]))
  end.
Proof.
  intros size values u lat lon H0 H1. unfold loadWeatherBlock, vget. rewrite H0, H1. cbn [obind].
  destruct (cache_find (lat, lon) (us_cache u)) as [p|]; [reflexivity|]. intros e w E Iw. cbv zeta. cbn [us_edata]. rewrite E. cbn [obind].
  unfold storeSolar. cbn [us_edata set_edata]. rewrite Iw. cbn [obind us_heap us_weather set_edata].
  rewrite vset_ok by (rewrite app_length; cbn [length]; lia). cbn [obind].
  unfold set_valid, place, set_edata. cbn [us_building us_dataFile us_valid us_cache us_weather us_location us_edata us_heap].
  rewrite upd_app. reflexivity.
Qed.

Lemma cache_find_in : forall key (c : list ((T * T) * nat)) p, cache_find key c = Some p -> exists k, In (k, p) c.
Proof.
  intros key c p H. unfold cache_find in H. destruct (find _ c) as [[k q]|] eqn:F; [|discriminate]. apply find_some in F. destruct F as [I _].
  cbn in H. assert (q = p) by congruence. subst. exists k. exact I.
Qed.

Lemma weather_sound : forall files u u', sound u -> loadWeather fmt rd files u = Ok u' -> sound u'.
Proof.
  intros files u u' (S1&S2&S3&S4) H. apply loadWeather_inv in H. destruct H as (e&w&E&_&_&->). unfold sound.
  cbn [us_edata us_weather us_heap us_location us_cache]. rewrite L_IsoText2.upd_length. split; [eapply loadFile_columns; [exact S1|exact E]|].
  split; [exact S2|]. split; [intros p P; assert (p = us_weather u) by congruence; subst; exact S2|exact S4].
Qed.
Lemma block_sound : forall size values u u', sound u -> loadWeatherBlock fmt rd size values u = Ok u' -> sound u'.
Proof.
  intros size values u u' (S1&S2&S3&S4) H. apply loadBlock_inv in H. destruct H as (lat&lon&_&_&H).
  destruct (cache_find (lat, lon) (us_cache u)) as [p|] eqn:C.
  - subst u'. apply cache_find_in in C. destruct C as (k&I). pose proof (S4 k p I) as P. unfold sound. cbn [us_edata us_weather us_heap us_location us_cache].
    split; [exact S1|]. split; [exact P|]. split; [intros q Q; assert (q = p) by congruence; subst; exact P|exact S4].
  - destruct H as (e&w&E&_&->). unfold sound. cbn [us_edata us_weather us_heap us_location us_cache]. rewrite app_length. cbn [length].
    split; [eapply loadBlock_columns; [exact S1|exact E]|]. split; [lia|]. split.
    + intros q Q. assert (q = length (us_heap u)) by congruence. lia.
    + intros k q [I|I]; [assert (q = length (us_heap u)) by congruence; lia|]. specialize (S4 k q I). lia.
Qed.
Lemma after_sound : forall files b u u' r, sound u -> loadAfter fmt rd files b u = (u', r) -> r <> UB -> sound u'.
Proof.
  intros files b u u' r S H NU. assert (SB : forall b, sound (set_building b u)) by (intros; exact S).
  unfold loadAfter in H. destruct b as [b|x|].
  - cbv zeta in H. destruct (loadWeather fmt rd files (set_building b u)) as [v|x|] eqn:E.
    + assert (u' = v) as -> by congruence. eapply weather_sound; [apply (SB b)|exact E].
    + assert (u' = set_building b u) as -> by congruence. apply SB.
    + congruence.
  - assert (u' = u) as -> by congruence. exact S.
  - congruence.
Qed.
Lemma call_sound : forall u u', sound u -> call fmt rd u u' -> sound u'.
Proof.
  intros u u' S H. destruct H as [files f u u' r H NU|files f d u u' r H NU|files u u' H|files u u' H|size values u u' H|b u|b u].
  - unfold load in H. cbv zeta in H. destruct (exists_file files f).
    + eapply after_sound; [|exact H|exact NU]. exact S.
    + assert (u' = set_valid false (set_valid true (set_dataFile f u))) as -> by congruence. exact S.
  - unfold load2 in H. cbv zeta in H. destruct (exists_file files f); [destruct (exists_file files d)|].
    + eapply after_sound; [|exact H|exact NU]. exact S.
    + assert (u' = set_valid false (set_valid true (set_dataFile f u))) as -> by congruence. exact S.
    + assert (u' = set_valid false (set_valid true (set_dataFile f u))) as -> by congruence. exact S.
  - eapply weather_sound; eassumption.
  - unfold loadAndSetWeather in H. destruct (loadWeather fmt rd files u) as [v| |] eqn:E; [cbn [obind] in H|discriminate H|discriminate H].
    assert (u' = set_valid true v) as -> by congruence. exact (weather_sound files u v S E).
  - eapply block_sound; eassumption.
  - exact S.
  - exact S.
Qed.
Lemma calls_sound : forall u u', sound u -> calls fmt rd u u' -> sound u'.
Proof. intros u u' S H. induction H as [u|u v w _ IH C]; [exact S|]. eapply call_sound; [apply IH; exact S|exact C]. Qed.
Lemma reached_sound : forall u, reached fmt rd u -> sound u.
Proof. intros u (b&H). eapply calls_sound; [apply new_sound|exact H]. Qed.

(** C51 *)
Lemma C51_file_l : forall files u u', reached fmt rd u -> loadWeather fmt rd files u = Ok u' -> exists e w,
  loadFile rd (files (weatherFile files u)) (us_edata u) = Ok e /\ initializeSolar fmt rd e = Ok w /\
  forall m, create u' = Ok m -> hourlyWeather u' m = e /\ monthlyWeather u' m = Ok w.
Proof.
  intros files u u' R H. apply reached_sound in R. apply loadWeather_inv in H. destruct H as (e&w&E&Iw&L&->). exists e, w. split; [exact E|]. split; [exact Iw|].
  intros m C. unfold create in C. cbn [us_valid us_building us_location] in C. destruct (if exists_file files (weatherFile files u) then us_valid u else Some false) as [[|]|]; try discriminate C.
  split; [reflexivity|]. assert (cr_weather m = Some (us_weather u)) as CW by (assert (F : forall a b : created T, Ok a = Ok b -> b = a) by (intros; congruence); rewrite (F _ _ C); reflexivity).
  unfold monthlyWeather. rewrite CW. cbn [us_heap]. unfold vget. rewrite upd_same by exact L. reflexivity.
Qed.
Lemma C51_new_block_l : forall size values u u' lat lon, reached fmt rd u -> loadWeatherBlock fmt rd size values u = Ok u' ->
  nth_error values 0 = Some lat -> nth_error values 1 = Some lon -> cache_find (lat, lon) (us_cache u) = None -> exists e w,
  loadBlock size values (us_edata u) = Ok e /\ initializeSolar fmt rd e = Ok w /\
  exists m, create u' = Ok m /\ hourlyWeather u' m = e /\ monthlyWeather u' m = Ok w.
Proof.
  intros size values u u' lat lon R H H0 H1 CF. apply loadBlock_inv in H. destruct H as (la&lo&L0&L1&H).
  assert (la = lat) by congruence. assert (lo = lon) by congruence. subst la lo. rewrite CF in H. destruct H as (e&w&E&Iw&->).
  exists e, w. split; [exact E|]. split; [exact Iw|]. eexists. split; [reflexivity|]. split; [reflexivity|].
  unfold monthlyWeather. cbn [cr_weather us_location us_heap]. unfold vget. rewrite nth_error_app2, Nat.sub_diag by lia. reflexivity.
Qed.
(** A cache hit: nothing is read. *)
Lemma C51_hit_l : forall size values u u' lat lon p, loadWeatherBlock fmt rd size values u = Ok u' ->
  nth_error values 0 = Some lat -> nth_error values 1 = Some lon -> cache_find (lat, lon) (us_cache u) = Some p ->
  exists m, create u' = Ok m /\ hourlyWeather u' m = us_edata u /\ monthlyWeather u' m = vget (us_heap u) p.
Proof.
  intros size values u u' lat lon p H H0 H1 CF. apply loadBlock_inv in H. destruct H as (la&lo&L0&L1&H).
  assert (la = lat) by congruence. assert (lo = lon) by congruence. subst la lo. rewrite CF in H. subst u'.
  eexists. split; [reflexivity|]. split; reflexivity.
Qed.

(** C52 *)
Lemma C52_blocks_l : forall u u' m, reached fmt rd u -> create u = Ok m -> block_loads fmt rd u u' -> monthlyWeather u' m = monthlyWeather u m.
Proof.
  intros u u' m R C H. apply reached_sound in R. 
  enough (G : sound u' /\ length (us_heap u) <= length (us_heap u') /\ forall p, p < length (us_heap u) -> nth_error (us_heap u') p = nth_error (us_heap u) p).
  { unfold create in C. destruct (us_valid u) as [[|]|]; try discriminate C. assert (cr_weather m = us_location u) as CW by (assert (F : forall a b : created T, Ok a = Ok b -> b = a) by (intros; congruence); rewrite (F _ _ C); reflexivity).
    unfold monthlyWeather. rewrite CW. destruct (us_location u) as [p|] eqn:P; [|reflexivity]. unfold vget. destruct G as (_&_&G). rewrite G; [reflexivity|].
    destruct R as (_&_&R&_). apply R. exact P. }
  clear C. induction H as [u|u v w size values H IH B]; [split; [exact R|split; [lia|reflexivity]]|].
  destruct (IH R) as (S&L&G). split; [eapply block_sound; eassumption|]. apply loadBlock_inv in B. destruct B as (lat&lon&_&_&B).
  destruct (cache_find (lat, lon) (us_cache v)) as [p|].
  - subst w. cbn [us_heap]. split; assumption.
  - destruct B as (e&x&_&_&->). cbn [us_heap]. rewrite app_length. split; [lia|]. intros p P. rewrite nth_error_app1 by lia. apply G. exact P.
Qed.
Lemma C52_file_l : forall files u u' m, loadWeather fmt rd files u = Ok u' -> create u = Ok m -> us_location u = Some (us_weather u) ->
  exists w, initializeSolar fmt rd (us_edata u') = Ok w /\ monthlyWeather u' m = Ok w /\ hourlyWeather u' m = us_edata u'.
Proof.
  intros files u u' m H C P. apply loadWeather_inv in H. destruct H as (e&w&E&Iw&L&->). exists w. cbn [us_edata]. split; [exact Iw|]. split; [|reflexivity].
  unfold create in C. destruct (us_valid u) as [[|]|]; try discriminate C. assert (cr_weather m = us_location u) as CW by (assert (F : forall a b : created T, Ok a = Ok b -> b = a) by (intros; congruence); rewrite (F _ _ C); reflexivity).
  unfold monthlyWeather. rewrite CW, P. cbn [us_heap]. unfold vget. rewrite upd_same by exact L. reflexivity.
Qed.

(** C53 *)
Lemma weather_valid : forall files u u', loadWeather fmt rd files u = Ok u' ->
  weatherFile files u' = weatherFile files u /\ us_valid u' = if exists_file files (weatherFile files u) then us_valid u else Some false.
Proof. intros files u u' H. apply loadWeather_inv in H. destruct H as (e&w&_&_&_&->). split; reflexivity. Qed.
Lemma after_valid : forall files b u u', us_valid u = Some true -> loadAfter fmt rd files b u = (u', Ok tt) ->
  (us_valid u' = Some true <-> exists_file files (weatherFile files u') = true) /\ us_valid u' <> None.
Proof.
  intros files b u u' V H. unfold loadAfter in H. destruct b as [b|x|]; try (exfalso; congruence). cbv zeta in H.
  destruct (loadWeather fmt rd files (set_building b u)) as [v|x|] eqn:E; try (exfalso; congruence).
  assert (u' = v) as -> by congruence. apply weather_valid in E. destruct E as [E1 E2]. rewrite E1, E2. cbn [set_building us_valid].
  destruct (exists_file files (weatherFile files (set_building b u))); rewrite ?V; split; try split; try reflexivity; try discriminate.
Qed.
Lemma exists_some : forall files (f : text), exists_file files f = true <-> files f <> None.
Proof. intros files f. unfold exists_file. destruct (files f); split; congruence. Qed.
Lemma C53_load_l : forall files f u u', load fmt rd files f u = (u', Ok tt) ->
  (us_valid u' = Some true <-> files f <> None /\ files (weatherFile files u') <> None) /\ us_valid u' <> None.
Proof.
  intros files f u u' H. unfold load in H. cbv zeta in H. rewrite <- !exists_some. destruct (exists_file files f) eqn:E.
  - apply after_valid in H; [|reflexivity]. destruct H as [[H1 H2] H3]. split; [|exact H3]. split; [intros V; split; [reflexivity|exact (H1 V)]|intros [_ V]; exact (H2 V)].
  - assert (u' = set_valid false (set_valid true (set_dataFile f u))) as -> by congruence. cbn [set_valid us_valid]. split; [split; [discriminate|intros [Q _]; discriminate]|discriminate].
Qed.
Lemma C53_load2_l : forall files f d u u', load2 fmt rd files f d u = (u', Ok tt) ->
  (us_valid u' = Some true <-> files f <> None /\ files d <> None /\ files (weatherFile files u') <> None) /\ us_valid u' <> None.
Proof.
  intros files f d u u' H. unfold load2 in H. cbv zeta in H. rewrite <- !exists_some. destruct (exists_file files f) eqn:E; [destruct (exists_file files d) eqn:E2|].
  - apply after_valid in H; [|reflexivity]. destruct H as [[H1 H2] H3]. split; [|exact H3]. split; [intros V; repeat split; exact (H1 V)|intros (_&_&V); exact (H2 V)].
  - assert (u' = set_valid false (set_valid true (set_dataFile f u))) as -> by congruence. cbn [set_valid us_valid]. split; [split; [discriminate|intros (_&Q&_); discriminate]|discriminate].
  - assert (u' = set_valid false (set_valid true (set_dataFile f u))) as -> by congruence. cbn [set_valid us_valid]. split; [split; [discriminate|intros [Q _]; discriminate]|discriminate].
Qed.
Lemma C53_throw_l : forall files f u u' x, load fmt rd files f u = (u', Throw x) -> us_valid u' = Some true.
Proof.
  intros files f u u' x H. unfold load in H. cbv zeta in H. destruct (exists_file files f); [|congruence].
  unfold loadAfter in H. destruct (loadBuilding _ _ _) as [b|y|].
  - cbv zeta in H. destruct (loadWeather _ _ _ _) as [v|y|]; try (exfalso; congruence).
    match type of H with (?a, _) = _ => assert (u' = a) as -> by congruence end. reflexivity.
  - match type of H with (?a, _) = _ => assert (u' = a) as -> by congruence end. reflexivity.
  - congruence.
Qed.
Lemma C53_create_l : forall (u : user T), (exists m, create u = Ok m) <-> us_valid u = Some true.
Proof.
  intros u. unfold create. destruct (us_valid u) as [[|]|]; split; try discriminate; try (intros [m H]; discriminate).
  - reflexivity.
  - intros _. eexists. reflexivity.
Qed.
End Machine.
