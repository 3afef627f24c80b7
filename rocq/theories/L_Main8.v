(** The comparison tables say which month comes first; the shipped building; failing loads. *)
From Coq Require Import Ascii String ZArith Lia Lra Bool Reals.
From Verif Require Import Base Num Xr Text M_Text M_TimeFrame M_Params M_Properties M_UserModel M_Epw M_Solar M_IsoText M_Weather M_Hourly M_Monthly M_Main
  S_Text S_Epw S_Results S_Solar S_Weather S_History S_Main S_Program S_Monthly E_SmallOffice E_Decimal E_OfficeFile E_EpwFile E_Monthly E_Program
  L_Text L_IsoText L_HourlyShape L_HourlyOut L_Monthly3 L_Monthly4 L_Monthly5 L_Office L_Xr L_Epw3 L_Epw L_Epw2 L_Weather2 L_Weather3 L_Main L_Main2 L_Main3 L_Main4 L_Main5 L_Main6 L_Main7.
Open Scope nat_scope.
Open Scope list_scope.

Lemma cells_unique md line c cs d ds : cells_of md line (c :: cs) -> cells_of md line (d :: ds) -> c = d /\ List.length cs = List.length ds.
Proof.
  destruct md; cbn [cells_of bar_cells comma_cells].
  - intros [E1 F1] [E2 F2]. rewrite E1 in E2.
    assert (NB : forall l : list text, Forall (fun c => ~ In "|"%char c) l -> Forall (fun f => ~ In "|"%char f) ([] :: map (fun c => blank :: c ++ [blank]) l ++ [[]])).
    { intros l F. constructor; [intros []|]. apply Forall_app. split; [|constructor; [intros []|constructor]]. apply Forall_map. revert F. apply Forall_impl. intros a A [I|I]; [discriminate|].
      apply in_app_or in I. destruct I as [I|[I|[]]]; [contradiction|discriminate]. }
    apply joined_unique in E2; [|apply NB; assumption|apply NB; assumption|discriminate|discriminate]. 
    assert (E3 : map (fun c => blank :: c ++ [blank]) (c :: cs) ++ [[]] = map (fun c => blank :: c ++ [blank]) (d :: ds) ++ [[]]) by congruence.
    apply app_inv_tail in E3. cbn [map] in E3. injection E3 as H1 H2. split.
    + apply app_inv_tail in H1. exact H1.
    + apply (f_equal (@List.length text)) in H2. rewrite !map_length in H2. exact H2.
  - intros F1 F2. pose proof (fields_unique _ _ _ F1 F2) as E. injection E as -> E. split; [reflexivity|]. apply (f_equal (@List.length text)) in E. rewrite !map_length in E. exact E.
Qed.
Lemma first_month {T} {N : Num T} (f g : nat) md (write write' : T -> text) mo ho mo' ho' out :
  comparison_text f md write mo ho out -> comparison_text g md write' mo' ho' out -> f = g.
Proof.
  intros (bs&L1&N1&B1) (cs&L2&N2&B2). pose proof (lines_unique _ _ _ L1 L2) as E. destruct bs as [|b bs]; [discriminate N1|]. destruct cs as [|c cs]; [discriminate N2|].
  destruct (B1 0 b eq_refl) as (n1&h1&l1&_&->&_&LL1&X1). destruct (B2 0 c eq_refl) as (n2&h2&l2&_&->&_&LL2&X2).
  destruct l1 as [|a l1]; [discriminate LL1|]. destruct l2 as [|d l2]; [discriminate LL2|].
  assert (a = d) as <- by (destruct md; cbn in E; congruence).
  destruct (X1 0 a eq_refl) as (t1&x1&y1&Q1&_&_&C1). destruct (X2 0 a eq_refl) as (t2&x2&y2&Q2&_&_&C2).
  destruct (cells_unique md a _ _ _ _ C1 C2) as [-> _]. rewrite Nat.add_0_r in Q1, Q2. exact (numeral_unique _ _ _ Q1 Q2).
Qed.

Section Program.
Context {T : Type} {N : Num T}.
Variable show : nat -> T -> text.
Variable rd : reader T.
Variable files : text -> option text.
Hypothesis W : forall d, writes_cells (show d).

Definition kind_word (md : bool) : text := if md then tx "md" else tx "csv".
Lemma C70_l b0 ism defaults b e md code out : building_of rd files b0 ism defaults b -> weather_of rd files ism b e ->
  main show rd files b0 (mkOptions (Some ism) defaults (Some (kind_word md)) false false false) = Ok (code, out) ->
  exists tables ws mo ho r, monthly_input (fun x => rd_atof rd (show 6 x)) e tables /\ hourly_input e ws /\
    simulateMonthly (bm_params b) tables = Ok mo /\ simulate (bm_params b) ws no_ratios true = Ok (ho, r) /\
    comparison_text 0 md (show 6) mo ho out /\ ~ comparison_text 1 md (show 6) mo ho out.
Proof.
  intros B We H. destruct (C69_l show rd files W b0 ism defaults b e B We) as (tables&ws&MI&HI&X).
  destruct (proj1 (X (Some (kind_word md)) false false false) code out H) as (_&outs&->&F).
  assert (R : requests (Some (kind_word md)) false false false = [Compare md]) by (destruct md; reflexivity). rewrite R in F.
  inversion F as [|? t ? ts S1 F1]; subst. inversion F1; subst. cbn [serves] in S1. destruct S1 as (mo&ho&Mo&(r&Ho)&CT).
  exists tables, ws, mo, ho, r. split; [exact MI|]. split; [exact HI|]. split; [exact Mo|]. split; [exact Ho|]. cbn [concat]. rewrite app_nil_r. split; [exact CT|].
  intros Q. discriminate (first_month _ _ _ _ _ _ _ _ _ _ CT Q).
Qed.

(** Failing loads end the program with the exception. *)
Lemma C73_throw_l b0 ism o x : op_ism o = Some ism -> files ism <> None ->
  match op_defaults o with None => loadBuilding rd (files ism) b0 = Throw x | Some d => files d <> None /\ loadBuilding2 rd (files ism) (files d) b0 = Throw x end ->
  main show rd files b0 o = Throw x.
Proof.
  intros E X H. unfold main. rewrite E. cbv zeta. destruct (op_defaults o) as [d|].
  - destruct H as [D H]. unfold load2. cbv zeta. rewrite (proj2 (exists_some files ism) X), (proj2 (exists_some files d) D). cbn [us_building set_valid set_dataFile newUser]. rewrite H. reflexivity.
  - unfold load. cbv zeta. rewrite (proj2 (exists_some files ism) X). cbn [us_building set_valid set_dataFile newUser]. rewrite H. reflexivity.
Qed.
End Program.

(** ** The shipped building *)
Lemma office_building (files : text -> option text) ism : files ism = Some officeText ->
  building_of (decimal_reader : reader xr) files freshOffice ism None (mkBuildingModel smallOffice (tx "ORD.epw")).
Proof. intros H. split; [congruence|]. rewrite H. vm_compute. reflexivity. Qed.
Lemma office_monthly (show : nat -> xr -> text) files ism e : (forall d, writes_cells (show d)) -> files ism = Some officeText ->
  weather_of decimal_reader files ism (mkBuildingModel smallOffice (tx "ORD.epw")) e ->
  main show decimal_reader files freshOffice (mkOptions (Some ism) None None true false false) = UB.
Proof.
  intros W F We. destruct (opened_ok show decimal_reader files W freshOffice ism None _ e (office_building files ism F) We) as (u&tables&ws&O&_&_&RM&_).
  apply (main_monthly_ub show decimal_reader files W freshOffice ism None u O). rewrite RM. apply C26_office_l.
Qed.

(** ** Concrete runs *)
Definition coded : building_model xr := mkBuildingModel monthlyOffice (tx "ORD.epw").
Lemma coded_building : building_of (decimal_reader : reader xr) demoFiles freshOffice (tx "coded.ism") None coded.
Proof. split; [discriminate|]. vm_compute. reflexivity. Qed.
Lemma sample_header : header (decimal_reader : reader xr) (hd [] (goodlines [] epwSample)) <> None.
Proof.
  assert (E : forall T (N : Num T), header (decimal_reader : reader T) (hd [] (goodlines [] epwSample)) =
    match ntrunc (rd_atof (decimal_reader : reader T) (tx "-6.0")) with Some x => Some (lit 4198 100, nopp (lit 8792 100), x) | None => None end) by (intros; vm_compute; reflexivity).
  rewrite E, zone_six. discriminate.
Qed.
Lemma demo_weather (ism : text) p : exists e, weather_of (decimal_reader : reader xr) demoFiles ism (mkBuildingModel p (tx "ORD.epw")) e.
Proof.
  pose proof (loadFile_spec (decimal_reader : reader xr) epwSample newEpw eq_refl) as S. pose proof (sample_header) as H.
  set (h := header decimal_reader (hd [] (goodlines [] epwSample))) in *. clearbody h. destruct h as [site|]; [clear H|congruence].
  destruct S as (e&E&_). exists e. exists (tx "ORD.epw"), epwSample. split; [left; reflexivity|]. split; [reflexivity|]. split; [exact E|]. exact (file_year decimal_reader _ e E).
Qed.
Lemma digit_writes d : writes_cells (@digitWriter xr d).
Proof.
  intros x. unfold digitWriter. split; [|split; [|split]]; [|apply showInt_free; reflexivity..].
  intros H. destruct (showInt_numeral d) as (u&U&_). rewrite H in U. discriminate U.
Qed.
Lemma coded_nine : nine_surfaces (pa_structure (bm_params coded)).
Proof. intros v I. cbn in I. repeat (destruct I as [<-|I]; [reflexivity|]). destruct I. Qed.
Lemma coded_shading : shading_coded (pa_structure (bm_params coded)).
Proof. intros x I. left. change (st_windowSDF _) with (repeat (@zn xr _ 1) 9) in I. apply repeat_spec in I. subst x. apply ntrunc_zn. unfold int_max. lia. Qed.
Lemma coded_bem : bem_castable (bm_params coded).
Proof. exists 1%Z. change (bu_bem (pa_building (bm_params coded))) with (@zn xr _ 1). apply ntrunc_zn. unfold int_max. lia. Qed.
Lemma coded_schedule : schedule_castable (bm_params coded).
Proof. exact office_ints. Qed.
Lemma sample_number : rd_atof (decimal_reader : reader xr) (showInt 6) = Fin 6.
Proof. assert (E : forall T (N : Num T), rd_atof (decimal_reader : reader T) (showInt 6) = zn 6) by (intros; vm_compute; reflexivity). rewrite E, zn_fin, zn_R. reflexivity. Qed.
(** Every request can be served for the building with shading device 1. *)
Lemma demo_runs : exists e, weather_of (decimal_reader : reader xr) demoFiles (tx "coded.ism") coded e /\
  forall compare monthly byMonth byHour, exists out, main digitWriter decimal_reader demoFiles freshOffice (mkOptions (Some (tx "coded.ism")) None compare monthly byMonth byHour) = Ok (0%Z, out).
Proof.
  destruct (demo_weather (tx "coded.ism") monthlyOffice) as [e We]. exists e. split; [exact We|].
  destruct (C69_l digitWriter decimal_reader demoFiles digit_writes freshOffice _ None coded e coded_building We) as (tables&ws&MI&HI&X).
  intros c m hm hh. apply (proj2 (X c m hm hh)). intros r _. split.
  - intros _. apply C18_monthly_defined_l. split; [exact coded_nine|]. split; [eapply (input_full digitWriter decimal_reader); exact MI|].
    split; [|split; [exact coded_shading|exact coded_bem]].
    destruct MI as (dbt&dpt&rh&egh&eb&ed&wind&frame&s0&s&_&_&_&_&_&_&_&_&E5&_). intros row I. rewrite E5 in I. exists (Fin 6). unfold hourly_means in I. rewrite map_map in I.
    apply in_map_iff in I. destruct I as (mm&<-&_). rewrite map_map. split.
    + apply in_map_iff. exists 0%Z. split; [exact sample_number|]. cbv. left. reflexivity.
    + apply eqb_zero. intros Q. injection Q as Q. revert Q. lra.
  - intros agg _. destruct (input_nine e ws HI) as [L S]. destruct (simulate_total (bm_params coded) ws no_ratios agg) as (rows&r0&E&_); [exact coded_schedule|apply surfaces_structure; exact coded_nine|exact L|exact S|].
    exists (rows, r0). exact E.
Qed.
Lemma C72_refuted_l : exists (show : nat -> xr -> text) rd files b0 ism out1 out2 out3, (forall d, writes_cells (show d)) /\
  main show rd files b0 (mkOptions (Some ism) None None true false false) = Ok (0%Z, out1) /\
  main show rd files b0 (mkOptions (Some ism) None None false true false) = Ok (0%Z, out2) /\
  main show rd files b0 (mkOptions (Some ism) None None true true false) = Ok (0%Z, out3) /\ out3 <> out1 ++ out2.
Proof.
  destruct demo_runs as (e&We&R). destruct (R None true false false) as [out1 H1]. destruct (R None false true false) as [out2 H2]. destruct (R None true true false) as [out3 H3].
  exists digitWriter, decimal_reader, demoFiles, freshOffice, (tx "coded.ism"), out1, out2, out3. split; [exact digit_writes|]. split; [exact H1|]. split; [exact H2|]. split; [exact H3|].
  destruct (C72_l digitWriter decimal_reader demoFiles digit_writes freshOffice _ None coded e true out1 out2 out3 coded_building We H1 H2 H3) as (ws&rows&r&_&S&Q).
  intros E. pose proof (proj1 Q E) as A. apply simulate_det in S. destruct S as (raw & _ & [L F] & _).
  destruct rows as [|row rows]; [discriminate L|]. inversion_clear F as [|? ? F1 F2]. destruct row as [|x row]; [discriminate F1|].
  specialize (A (x :: row) x (or_introl eq_refl) (or_introl eq_refl)). vm_compute in A. discriminate A.
Qed.
(** The building of the repository in the demonstration directory. *)
Lemma office_demo : exists e, weather_of (decimal_reader : reader xr) demoFiles (tx "office.ism") (mkBuildingModel smallOffice (tx "ORD.epw")) e.
Proof. apply demo_weather. Qed.
