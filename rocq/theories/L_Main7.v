(** When the program prints a report, and what goes wrong. *)
From Coq Require Import Ascii String ZArith Lia Bool DecimalString.
From Verif Require Import Base Num Text M_Text M_TimeFrame M_Params M_Properties M_UserModel M_Epw M_Solar M_IsoText M_Weather M_Hourly M_Monthly M_Main
  S_Text S_Epw S_Results S_Solar S_Weather S_History S_Main S_Program S_Monthly L_Text L_IsoText L_HourlyShape L_HourlyOut L_Monthly3 L_Epw L_Epw2 L_Weather2 L_Main L_Main2 L_Main3 L_Main4 L_Main5 L_Main6.
Open Scope nat_scope.
Open Scope list_scope.

Section Program.
Context {T : Type} {N : Num T}.
Variable show : nat -> T -> text.
Variable rd : reader T.
Variable files : text -> option text.
Hypothesis W : forall d, writes_cells (show d).
Let got (x : T) : T := rd_atof rd (show 6 x).

Lemma input_nine e ws : hourly_input e ws -> (8760 <= Z.of_nat (length ws))%Z /\ forall w, In w ws -> nine (we_sol w) = true.
Proof.
  intros (frame&s0&s&_&_&_&L&H). split; [rewrite L; reflexivity|]. intros w I. apply In_nth_error in I. destruct I as [i I].
  destruct (H i w I) as (_&_&walls&roof&_&E&_&->). unfold nine. rewrite app_length, E. reflexivity.
Qed.
Lemma surfaces_structure (s : structure_t T) : nine_surfaces s -> structure_nine s = true.
Proof.
  unfold nine_surfaces, structure_nine, nine. intros H.
  rewrite (H (st_wallArea s)), (H (st_windowArea s)), (H (st_wallU s)), (H (st_windowU s)), (H (st_wallAbsorption s)), (H (st_windowSDF s)), (H (st_windowSHGC s)), (H (st_windowSCF s)) by (cbn; tauto). reflexivity.
Qed.
Lemma C69_hourly_l b0 ism defaults b e (agg : bool) : building_of rd files b0 ism defaults b -> weather_of rd files ism b e ->
  nine_surfaces (pa_structure (bm_params b)) -> schedule_castable (bm_params b) ->
  exists out, main show rd files b0 (mkOptions (Some ism) defaults None false agg (negb agg)) = Ok (0%Z, out).
Proof.
  intros B We S9 SC. destruct (C69_l show rd files W b0 ism defaults b e B We) as (tables&ws&_&HI&X). apply (proj2 (X None false agg (negb agg))).
  destruct (input_nine e ws HI) as [L S].
  intros r I. split.
  - intros Q. destruct agg; cbn in I; destruct I as [<-|[]]; discriminate Q.
  - intros a _. destruct (simulate_total (bm_params b) ws no_ratios a) as (rows&r0&E&_); [exact SC|apply surfaces_structure; exact S9|exact L|exact S|]. exists (rows, r0). exact E.
Qed.
Lemma input_full e tables : monthly_input got e tables -> full_tables tables.
Proof.
  intros (dbt&dpt&rh&egh&eb&ed&wind&frame&s0&s&_&_&_&_&E1&E2&E3&E4&E5&L&R&_). unfold full_tables. rewrite E1, E2, E3, E4, E5.
  assert (H : forall l : list T, length (map (map got) (hourly_means l)) = 12 /\ forall r, In r (map (map got) (hourly_means l)) -> length r = 24).
  { intros l. split; [rewrite map_length; unfold hourly_means; rewrite map_length; reflexivity|]. intros r I. apply in_map_iff in I. destruct I as (x&<-&I). rewrite map_length.
    unfold hourly_means in I. apply in_map_iff in I. destruct I as (m&<-&_). rewrite map_length. reflexivity. }
  assert (M : forall l : list T, length (map got (monthly_means l)) = 12) by (intros l; rewrite map_length; unfold monthly_means; rewrite map_length; reflexivity).
  split; [split; [exact L|exact R]|]. split; [apply H|]. split; [apply H|]. split; [apply M|]. split; apply M.
Qed.
Lemma main_monthly_ub b0 ism defaults u : opened show rd files b0 ism defaults = (u, Ok tt) -> runMonthly u = UB ->
  main show rd files b0 (mkOptions (Some ism) defaults None true false false) = UB.
Proof.
  intros O R. unfold main. cbn [op_ism op_defaults]. cbv zeta. fold (opened show rd files b0 ism defaults). rewrite O. cbn [obind]. rewrite (runs_monthly show W), R. reflexivity.
Qed.
Lemma C69_monthly_l b0 ism defaults b e : building_of rd files b0 ism defaults b -> weather_of rd files ism b e ->
  exists tables, monthly_input got e tables /\
    let good := nine_surfaces (pa_structure (bm_params b)) /\ sun_every_month tables /\ shading_coded (pa_structure (bm_params b)) /\ bem_castable (bm_params b) in
    let run := main show rd files b0 (mkOptions (Some ism) defaults None true false false) in
    (good -> exists out, run = Ok (0%Z, out)) /\ (~ good -> run = UB).
Proof.
  intros B We. destruct (opened_ok show rd files W b0 ism defaults b e B We) as (u&tables&ws&O&MI&HI&RM&RH). exists tables. split; [exact MI|]. cbv zeta. split.
  - intros (G1&G2&G3&G4). destruct (proj2 (C18_monthly_defined_l (bm_params b) tables)) as [rows E]; [split; [exact G1|split; [apply (input_full e); exact MI|split; [exact G2|split; [exact G3|exact G4]]]]|].
    exists (monthlyOut show rows). apply (main_opened show rd files b0 _ ism); [reflexivity|]. exists u. split; [exact O|]. split; [|reflexivity]. rewrite (runs_monthly show W), RM, E. reflexivity.
  - intros NG. apply (main_monthly_ub _ _ _ u O). rewrite RM. destruct (simulateMonthly_ub (bm_params b) tables) as [H|H]; [|exact H]. exfalso. apply NG.
    apply C18_monthly_defined_l in H. tauto.
Qed.

(** ** C71 *)
Lemma C71_default_l b0 i d : main show rd files b0 (mkOptions i d None false false false) = main show rd files b0 (mkOptions i d None true false false).
Proof. unfold main. cbn [op_ism op_defaults]. destruct i as [ism|]; [|reflexivity]. cbv zeta. destruct (match d with Some _ => _ | None => _ end) as [u r]. rewrite (runs_none show W), (runs_monthly show W). reflexivity. Qed.
Lemma C71_no_file_l b0 o : op_ism o = None -> main show rd files b0 o = Ok (1%Z, []).
Proof. unfold main. intros ->. reflexivity. Qed.

(** ** C72 *)
Lemma tableOut_inj title unit d d' rows : (forall r, In r rows -> length r = 13) -> ~ In newline title -> ~ In newline unit -> ~ In "," unit ->
  tableOut show title unit d rows = tableOut show title unit d' rows -> forall row x, In row rows -> In x row -> show d x = show d' x.
Proof.
  intros R T1 U1 U2 E row x I J.
  pose proof (tableOut_text show W title unit d rows) as A. pose proof (tableOut_text show W title unit d' rows) as B.
  specialize (A T1 U1 U2). specialize (B T1 U1 U2).
  destruct A as (h&ls&FL&_&LL&A). destruct B as (h'&ls'&FL'&_&LL'&B). rewrite <- E in FL'.
  pose proof (lines_unique _ _ _ FL FL') as Q. assert (ls' = ls) as -> by congruence.
  apply In_nth_error in I. destruct I as [i I]. assert (exists line, nth_error ls i = Some line) as [line L].
  { destruct (nth_error ls i) as [l|] eqn:X; [exists l; reflexivity|]. apply nth_error_None in X. assert (nth_error rows i <> None) by congruence. apply nth_error_Some in H. lia. }
  destruct (A i row line I L) as (n&_&F1). destruct (B i row line I L) as (n'&_&F2). pose proof (fields_unique _ _ _ F1 F2) as Z. 
  assert (Z' : map (fun x => blank :: show d x) row = map (fun x => blank :: show d' x) row) by congruence.
  apply In_nth_error in J. destruct J as [j J]. apply (f_equal (fun l => nth_error l j)) in Z'. rewrite !nth_error_map, J in Z'. cbn in Z'. congruence.
Qed.
Lemma plainLines_ext rows d d' : forall k, (forall row x, In row rows -> In x row -> show d x = show d' x) -> plainLines show d k rows = plainLines show d' k rows.
Proof.
  induction rows as [|r rows IH]; intros k H; [reflexivity|]. cbn [plainLines]. rewrite (IH (S k)) by (intros; eapply H; [right|]; eassumption). f_equal.
  unfold plainLine. f_equal. f_equal. apply map_ext_in. intros x I. f_equal. apply (H r); [left; reflexivity|exact I].
Qed.
Lemma C72_l b0 ism defaults b e (agg : bool) out1 out2 out3 :
  building_of rd files b0 ism defaults b -> weather_of rd files ism b e ->
  main show rd files b0 (mkOptions (Some ism) defaults None true false false) = Ok (0%Z, out1) ->
  main show rd files b0 (mkOptions (Some ism) defaults None false agg (negb agg)) = Ok (0%Z, out2) ->
  main show rd files b0 (mkOptions (Some ism) defaults None true agg (negb agg)) = Ok (0%Z, out3) ->
  exists ws rows r, hourly_input e ws /\ simulate (bm_params b) ws no_ratios agg = Ok (rows, r) /\
    (out3 = out1 ++ out2 <-> forall row x, In row rows -> In x row -> show 6 x = show 10 x).
Proof.
  intros B We H1 H2 H3. destruct (opened_ok show rd files W b0 ism defaults b e B We) as (u&tables&ws&O&MI&HI&RM&RH).
  assert (P : forall c m hm hh out, main show rd files b0 (mkOptions (Some ism) defaults c m hm hh) = Ok (0%Z, out) -> runs show u (mkOptions (Some ism) defaults c m hm hh) = Ok out).
  { intros c m hm hh out H. apply (main_opened show rd files b0 _ ism) in H; [|reflexivity]. destruct H as (u'&O'&R&_). cbn [op_defaults] in O'. assert (u' = u) as -> by congruence. exact R. }
  apply P in H1, H2, H3. rewrite (runs_monthly show W) in H1. apply obind_ok in H1 as (mo & M & H1).
  rewrite (runs_parts show W) in H2, H3.
  assert (E2 : exists rows, runHourly u agg = Ok rows /\ out2 = hourlyOut show agg 6 rows).
  { destruct agg; cbn [negb asked hourlyDigits requests op_compare op_monthly op_hourlyByMonth op_hourlyByHour app omap part] in H2;
    (destruct (runHourly u _) as [rows| |]; cbn [obind] in H2; try discriminate H2); exists rows; (split; [reflexivity|]); cbn [concat] in H2; rewrite app_nil_r in H2; congruence. }
  destruct E2 as (rows&HR&->).
  assert (out3 = monthlyOut show mo ++ hourlyOut show agg 10 rows) as ->.
  { destruct agg; cbn [negb asked hourlyDigits requests op_compare op_monthly op_hourlyByMonth op_hourlyByHour app omap part] in H3; rewrite M in H3; cbn [obind] in H3; rewrite HR in H3; cbn [obind concat] in H3; rewrite app_nil_r in H3; congruence. }
  assert (out1 = monthlyOut show mo) as -> by congruence. pose proof (runHourly_shape u agg rows HR) as SH. pose proof HR as HR'.
  rewrite RH in HR'. destruct (simulate (bm_params b) ws no_ratios agg) as [[rs r]| |] eqn:E; try discriminate HR'. assert (rs = rows) as -> by (cbn in HR'; congruence).
  exists ws, rows, r. split; [exact HI|]. split; [exact E|]. split.
  - intros Q row x I J. apply app_inv_head in Q. symmetry.
    assert (R : forall r, In r rows -> length r = 13) by (apply Forall_forall, SH).
    destruct agg; cbn [hourlyOut] in Q; revert row x I J; eapply tableOut_inj; try exact Q; try exact R; intros I; cbv in I; decompose [or] I; try discriminate; contradiction.
  - intros Q. f_equal. assert (X : forall title unit, tableOut show title unit 10 rows = tableOut show title unit 6 rows).
    { intros title unit. unfold tableOut. rewrite (plainLines_ext rows 10 6 0); [reflexivity|]. intros row x I J. symmetry. exact (Q row x I J). }
    destruct agg; apply X.
Qed.

(** ** C73 *)
Lemma omap_ub {A B} (f : A -> outcome B) l a : In a l -> f a = UB -> (forall x, In x l -> f x = UB \/ exists y, f x = Ok y) -> omap f l = UB.
Proof.
  intros I E. induction l as [|b l IH]; intros H; [destruct I|]. cbn [omap]. destruct (H b (or_introl eq_refl)) as [X|[y X]]; rewrite X; [reflexivity|]. cbn [obind].
  destruct I as [->|I]; [congruence|]. rewrite (IH I); [reflexivity|]. intros x J. apply H. right. exact J.
Qed.
Lemma part_invalid (u : user T) d r : us_valid u = Some false -> r <> UnknownCompare -> part show u d r = UB.
Proof.
  intros V Nr. assert (C : create u = UB) by (unfold create; rewrite V; reflexivity).
  destruct r; cbn [part]; [| contradiction |..]; unfold runHourly, runMonthly; rewrite C; reflexivity.
Qed.
Lemma runs_invalid (u : user T) o : us_valid u = Some false -> asked o <> [UnknownCompare] -> runs show u o = UB.
Proof.
  intros V A. rewrite (runs_parts show W). destruct (asked_simulates o A) as (r&I&Nr).
  rewrite (omap_ub (part show u (hourlyDigits o)) (asked o) r I (part_invalid u _ r V Nr)); [reflexivity|].
  intros x _. destruct x as [md| | |bm]; [left|right; eexists; reflexivity|left|left]; apply part_invalid; try exact V; discriminate.
Qed.
Lemma C73_l b0 ism o : op_ism o = Some ism -> asked o <> [UnknownCompare] ->
  files ism = None \/ (exists d, op_defaults o = Some d /\ files d = None) -> main show rd files b0 o = UB.
Proof.
  intros E A M. unfold main. rewrite E. cbv zeta. fold (opened show rd files b0 ism (op_defaults o)).
  assert (X : exists u, opened show rd files b0 ism (op_defaults o) = (u, Ok tt) /\ us_valid u = Some false).
  { unfold opened. destruct M as [M|(d&->&M)].
    - destruct (op_defaults o); unfold load, load2, exists_file; cbv zeta; rewrite M; eexists; split; reflexivity.
    - unfold load2, exists_file. cbv zeta. rewrite M. destruct (files ism); eexists; split; reflexivity. }
  destruct X as (u&->&V). cbn [obind]. rewrite (runs_invalid u o V A). reflexivity.
Qed.
Lemma C73_message_l b0 ism o : op_ism o = Some ism -> asked o = [UnknownCompare] -> files ism = None ->
  exists out, main show rd files b0 o = Ok (0%Z, out) /\ full_lines out [tx "No output type given for compare. Please use 'md' or 'csv'."].
Proof.
  intros E A M. exists (message ++ [newline]). split.
  - unfold main. rewrite E. cbv zeta. fold (opened show rd files b0 ism (op_defaults o)).
    assert (X : exists u, opened show rd files b0 ism (op_defaults o) = (u, Ok tt)) by (unfold opened; destruct (op_defaults o); unfold load, load2, exists_file; cbv zeta; rewrite M; eexists; reflexivity).
    destruct X as (u&->). cbn [obind]. rewrite (runs_parts show W), A. reflexivity.
  - change (message ++ [newline]) with (ended [message]). apply ended_lines. apply Forall_cons; [|apply Forall_nil]. intros I. cbv in I. decompose [or] I; try discriminate; contradiction.
Qed.
Lemma solar_unset (e : epw T) : ep_site e = None -> initializeSolar (show 6) rd e = UB.
Proof. intros E. unfold initializeSolar, toISOData. destruct L_Calendar.timeFrame_spec as (frame&TF&_). rewrite TF. cbn [obind]. unfold newSolar. rewrite E. reflexivity. Qed.
Lemma C73_weather_l b0 ism o b : op_ism o = Some ism -> building_of rd files b0 ism (op_defaults o) b ->
  files (bm_weatherFilePath b) = None -> files (resolveFilename ism (bm_weatherFilePath b)) = None -> main show rd files b0 o = UB.
Proof.
  intros E B F1 F2. unfold main. rewrite E. cbv zeta. fold (opened show rd files b0 ism (op_defaults o)). rewrite (opened_building show rd files b0 ism _ b B).
  set (u := set_building b (set_valid true (set_dataFile ism (newUser b)))).
  assert (L : loadWeather (show 6) rd files u = UB).
  { unfold loadWeather. cbv zeta. assert (WF : weatherFile files u = resolveFilename ism (bm_weatherFilePath b)) by (unfold u; rewrite weather_name; unfold exists_file; rewrite F1; reflexivity).
    rewrite WF, F2. unfold exists_file. rewrite F2. cbn [loadFile obind]. unfold storeSolar. rewrite solar_unset; reflexivity. }
  rewrite L. reflexivity.
Qed.
End Program.
