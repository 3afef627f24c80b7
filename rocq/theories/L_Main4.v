(** The reports of the program for its files. *)
From Coq Require Import Ascii String ZArith Lia.
From Verif Require Import Base Num Text M_Text M_TimeFrame M_Params M_Properties M_UserModel M_Epw M_Solar M_IsoText M_Weather M_Hourly M_Monthly M_Main
  S_Text S_Epw S_Results S_Solar S_Weather S_History S_Main S_Program L_Text L_IsoText L_HourlyShape L_Epw L_Epw2 L_Weather2 L_Main L_Main2 L_Main3.
Open Scope nat_scope.
Open Scope list_scope.
Local Strategy 1000 [obind].

Section Program.
Context {T : Type} {N : Num T}.
Variable show : nat -> T -> text.
Variable rd : reader T.
Variable files : text -> option text.
Hypothesis W : forall d, writes_cells (show d).
Let got (x : T) : T := rd_atof rd (show 6 x).
Let F (b : building_model T) (ism : text) : user T := set_building b (set_valid true (set_dataFile ism (newUser b))).

Lemma set_building_new b0 b ism : set_building b (set_valid true (set_dataFile ism (newUser b0))) = F b ism.
Proof. reflexivity. Qed.
(** Loading a building that can be read comes down to loading its weather. *)
Lemma opened_building b0 ism defaults b : building_of rd files b0 ism defaults b ->
  opened show rd files b0 ism defaults = match loadWeather (show 6) rd files (F b ism) with Ok u => (u, Ok tt) | Throw x => (F b ism, Throw x) | UB => (F b ism, UB) end.
Proof.
  intros [X B]. unfold opened. destruct defaults as [d|].
  - destruct B as [D B]. unfold load2. cbv zeta. rewrite (proj2 (exists_some files ism) X), (proj2 (exists_some files d) D). cbn [us_building set_valid set_dataFile newUser]. rewrite B. reflexivity.
  - unfold load. cbv zeta. rewrite (proj2 (exists_some files ism) X). cbn [us_building set_valid set_dataFile newUser]. rewrite B. reflexivity.
Qed.
Lemma opened_inv b0 ism defaults u : opened show rd files b0 ism defaults = (u, Ok tt) -> us_valid u = Some true ->
  exists b, building_of rd files b0 ism defaults b /\ loadWeather (show 6) rd files (F b ism) = Ok u.
Proof.
  intros H V. assert (NV : forall v : user T, us_valid v = Some false -> (v, Ok tt) <> (u, Ok tt)) by (intros v Q E; congruence).
  assert (X : files ism <> None).
  { intros E. unfold opened in H. destruct defaults; unfold load, load2, exists_file in H; cbv zeta in H; rewrite E in H; revert H; apply NV; reflexivity. }
  destruct defaults as [d|]; cbn [opened] in H.
  - assert (D : files d <> None).
    { intros E. unfold load2 in H. cbv zeta in H. rewrite (proj2 (exists_some files ism) X) in H. unfold exists_file in H. rewrite E in H. revert H. apply NV. reflexivity. }
    unfold load2 in H. cbv zeta in H. rewrite (proj2 (exists_some files ism) X), (proj2 (exists_some files d) D) in H. unfold loadAfter in H. cbn [us_building set_valid set_dataFile newUser] in H.
    destruct (loadBuilding2 rd (files ism) (files d) b0) as [b| |] eqn:B; try discriminate H. exists b. split; [split; [exact X|split; [exact D|exact B]]|].
    rewrite set_building_new in H.
    destruct (loadWeather (show 6) rd files (F b ism)) as [v| |]; try discriminate H. congruence.
  - unfold load in H. cbv zeta in H. rewrite (proj2 (exists_some files ism) X) in H. unfold loadAfter in H. cbn [us_building set_valid set_dataFile newUser] in H.
    destruct (loadBuilding rd (files ism) b0) as [b| |] eqn:B; try discriminate H. exists b. split; [split; [exact X|exact B]|].
    rewrite set_building_new in H.
    destruct (loadWeather (show 6) rd files (F b ism)) as [v| |]; try discriminate H. congruence.
Qed.
Lemma file_year content (e : epw T) : loadFile rd (Some content) newEpw = Ok e -> year_table (ep_data e) /\ ep_site e <> None.
Proof.
  intros H. pose proof (loadFile_spec rd content newEpw eq_refl) as S. destruct (header rd (hd [] (goodlines [] content))) as [site|]; [|congruence].
  destruct S as (e'&E&TB&ES&_). assert (e' = e) as -> by congruence. split; [apply table_year; exact TB|congruence].
Qed.
Lemma weather_name b ism : weatherFile files (F b ism) = if exists_file files (bm_weatherFilePath b) then bm_weatherFilePath b else resolveFilename ism (bm_weatherFilePath b).
Proof. reflexivity. Qed.
Lemma loaded_weather b ism u : loadWeather (show 6) rd files (F b ism) = Ok u -> us_valid u = Some true -> exists e, weather_of rd files ism b e /\ us_edata u = e.
Proof.
  intros H V. apply loadWeather_inv in H. destruct H as (e&w&E&I&L&->). cbn [us_valid us_edata] in *. exists e. split; [|reflexivity].
  destruct (files (weatherFile files (F b ism))) as [content|] eqn:C; [|unfold exists_file in V; rewrite C in V; discriminate V].
  destruct (file_year content e E) as [Y S]. exists (weatherFile files (F b ism)), content. split; [|split; [exact C|split; [exact E|split; [exact Y|exact S]]]].
  rewrite weather_name. unfold exists_file. destruct (files (bm_weatherFilePath b)); [left; reflexivity|right; split; reflexivity].
Qed.
Lemma weather_loaded b ism e : weather_of rd files ism b e -> exists u w tables ws, loadWeather (show 6) rd files (F b ism) = Ok u /\
  assignedTables w = Ok tables /\ monthly_input got e tables /\ hourRows e = Ok ws /\ hourly_input e ws /\
  exists m, create u = Ok m /\ cr_params m = bm_params b /\ hourlyWeather u m = e /\ monthlyWeather u m = Ok w.
Proof.
  intros (name&content&NM&C&E&Y&S). destruct (months_ok show rd W e Y S) as (w&tables&I&A&M). destruct (hours_ok show rd W e Y S) as (ws&HR&HI).
  assert (WF : weatherFile files (F b ism) = name).
  { rewrite weather_name. unfold exists_file. destruct NM as [-> |[NM ->]]; [rewrite C; reflexivity|rewrite NM; reflexivity]. }
  assert (L : loadWeather (show 6) rd files (F b ism) = Ok (mkUser b ism (Some true) [] 0 (Some 0) e [w])).
  { unfold loadWeather. cbv zeta. rewrite WF. assert (X : exists_file files name = true) by (unfold exists_file; rewrite C; reflexivity).
    rewrite X, C. change (us_edata (F b ism)) with (newEpw : epw T). rewrite E. cbn [obind].
    unfold storeSolar. change (us_edata (set_edata e (F b ism))) with e. rewrite I. reflexivity. }
  exists (mkUser b ism (Some true) [] 0 (Some 0) e [w]), w, tables, ws. split; [exact L|]. split; [exact A|]. split; [exact M|]. split; [exact HR|]. split; [exact HI|].
  eexists. split; [reflexivity|]. split; [reflexivity|]. split; reflexivity.
Qed.

(** Everything about a run whose files can be read. *)
Lemma opened_ok b0 ism defaults b e : building_of rd files b0 ism defaults b -> weather_of rd files ism b e ->
  exists u tables ws, opened show rd files b0 ism defaults = (u, Ok tt) /\ monthly_input got e tables /\ hourly_input e ws /\
    runMonthly u = simulateMonthly (bm_params b) tables /\ forall agg, runHourly u agg = do r <- simulate (bm_params b) ws no_ratios agg; Ok (fst r).
Proof.
  intros B We. destruct (weather_loaded b ism e We) as (u&w&tables&ws&L&A&M&HR&HI&m&C&P&HW&MW).
  exists u, tables, ws. split; [rewrite (opened_building b0 ism defaults b B), L; reflexivity|]. split; [exact M|]. split; [exact HI|]. split.
  - unfold runMonthly. rewrite C. cbn [obind]. rewrite MW. cbn [obind]. rewrite A. cbn [obind]. rewrite P. reflexivity.
  - intros agg. unfold runHourly. rewrite C. cbn [obind]. rewrite HW, HR. cbn [obind]. rewrite P. reflexivity.
Qed.
(** A run that simulates anything had files that can be read. *)
Lemma run_valid u : (exists rows, runMonthly u = Ok rows) \/ (exists agg rows, runHourly u agg = Ok rows) -> us_valid u = Some true.
Proof.
  intros [[rows H]|(agg&rows&H)]; unfold runMonthly, runHourly in H; apply obind_ok in H as (m & C & _); apply (proj1 (C53_create_l u)); exists m; exact C.
Qed.
Lemma opened_files b0 ism defaults u : opened show rd files b0 ism defaults = (u, Ok tt) -> us_valid u = Some true ->
  exists b e, building_of rd files b0 ism defaults b /\ weather_of rd files ism b e.
Proof. intros H V. destruct (opened_inv b0 ism defaults u H V) as (b&B&L). destruct (loaded_weather b ism u L V) as (e&We&_). exists b, e. split; assumption. Qed.
End Program.
