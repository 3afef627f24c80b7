(** C69 to C73: the command line program, from its files to what it prints.

    [show d x] is the text of a number with d digits: any, as long as it has no comma, bar or line
    break.  [rd] turns text into numbers, [files] is the content of each file, [b0] the parameters
    of a model before loading.  [building_of], [weather_of], [monthly_input] and [hourly_input] are
    in S_Program, [requests] and [serves] in S_Main. *)
From Coq Require Import Ascii String ZArith List.
From Verif Require Import Base Num Xr Text M_Text M_Params M_Properties M_UserModel M_Epw M_Weather M_Hourly M_Monthly M_Main
  S_Text S_Epw S_Results S_Main S_Program S_Monthly E_SmallOffice E_Decimal E_OfficeFile E_EpwFile E_Monthly E_Program L_Main5 L_Main6 L_Main7 L_Main8.
Open Scope nat_scope.
Open Scope list_scope.

(** ** C69 *)
(** With files that can be read, what the program prints serves the requests of the command line in
    order, with the results of the two simulations for the building and the weather in the files;
    and it prints whenever the simulations it needs have results. *)
Theorem C69_reports : forall T (N : Num T) (show : nat -> T -> text) (rd : reader T) files, (forall d, writes_cells (show d)) ->
  forall b0 ism defaults b e, building_of rd files b0 ism defaults b -> weather_of rd files ism b e ->
  exists tables ws, monthly_input (fun x => rd_atof rd (show 6 x)) e tables /\ hourly_input e ws /\ forall compare monthly byMonth byHour,
    (forall code out, main show rd files b0 (mkOptions (Some ism) defaults compare monthly byMonth byHour) = Ok (code, out) ->
       code = 0%Z /\ exists outs, out = concat outs /\
         Forall2 (serves show (if monthly then 10 else 6) (fun rows => simulateMonthly (bm_params b) tables = Ok rows)
                    (fun agg rows => exists r, simulate (bm_params b) ws no_ratios agg = Ok (rows, r)))
           (requests compare monthly byMonth byHour) outs) /\
    ((forall r, In r (requests compare monthly byMonth byHour) ->
        (needs_monthly r = true -> exists rows, simulateMonthly (bm_params b) tables = Ok rows) /\
        (forall agg, needs_hourly r agg = true -> exists x, simulate (bm_params b) ws no_ratios agg = Ok x)) ->
     exists out, main show rd files b0 (mkOptions (Some ism) defaults compare monthly byMonth byHour) = Ok (0%Z, out)).
Proof. exact @C69_l. Qed.
Print Assumptions C69_reports.
(** A report is printed only for files that can be read. *)
Theorem C69_files : forall T (N : Num T) (show : nat -> T -> text) (rd : reader T) files, (forall d, writes_cells (show d)) ->
  forall b0 ism o code out, op_ism o = Some ism -> main show rd files b0 o = Ok (code, out) ->
  requests (op_compare o) (op_monthly o) (op_hourlyByMonth o) (op_hourlyByHour o) <> [UnknownCompare] ->
  exists b e, building_of rd files b0 ism (op_defaults o) b /\ weather_of rd files ism b e.
Proof. exact @C69_files_l. Qed.
Print Assumptions C69_files.
(** The hourly table is printed for every building with nine surfaces and whole opening times. *)
Theorem C69_hourly : forall T (N : Num T) (show : nat -> T -> text) (rd : reader T) files, (forall d, writes_cells (show d)) ->
  forall b0 ism defaults b e agg, building_of rd files b0 ism defaults b -> weather_of rd files ism b e ->
  nine_surfaces (pa_structure (bm_params b)) -> schedule_castable (bm_params b) ->
  exists out, main show rd files b0 (mkOptions (Some ism) defaults None false agg (negb agg)) = Ok (0%Z, out).
Proof. exact @C69_hourly_l. Qed.
Print Assumptions C69_hourly.
(** The monthly table is printed exactly for these buildings and weather; otherwise the behaviour is undefined. *)
Theorem C69_monthly : forall T (N : Num T) (show : nat -> T -> text) (rd : reader T) files, (forall d, writes_cells (show d)) ->
  forall b0 ism defaults b e, building_of rd files b0 ism defaults b -> weather_of rd files ism b e ->
  exists tables, monthly_input (fun x => rd_atof rd (show 6 x)) e tables /\
    let good := nine_surfaces (pa_structure (bm_params b)) /\ sun_every_month tables /\ shading_coded (pa_structure (bm_params b)) /\ bem_castable (bm_params b) in
    let run := main show rd files b0 (mkOptions (Some ism) defaults None true false false) in
    (good -> exists out, run = Ok (0%Z, out)) /\ (~ good -> run = UB).
Proof. exact @C69_monthly_l. Qed.
Print Assumptions C69_monthly.
(** The building file of the repository has no monthly table, whatever the weather. *)
Theorem C69_refuted : forall (show : nat -> xr -> text) files ism e, (forall d, writes_cells (show d)) -> files ism = Some officeText ->
  weather_of decimal_reader files ism (mkBuildingModel smallOffice (tx "ORD.epw")) e ->
  main show decimal_reader files freshOffice (mkOptions (Some ism) None None true false false) = UB.
Proof. exact office_monthly. Qed.
Print Assumptions C69_refuted.
Example C69_case : exists e, weather_of (decimal_reader : reader xr) demoFiles (tx "coded.ism") coded e /\
  forall compare monthly byMonth byHour, exists out,
    main digitWriter decimal_reader demoFiles freshOffice (mkOptions (Some (tx "coded.ism")) None compare monthly byMonth byHour) = Ok (0%Z, out).
Proof. exact demo_runs. Qed.
Example C69_case_building : building_of (decimal_reader : reader xr) demoFiles freshOffice (tx "coded.ism") None coded /\
  (forall d, writes_cells (@digitWriter xr d)) /\ nine_surfaces (pa_structure (bm_params coded)) /\ schedule_castable (bm_params coded) /\
  shading_coded (pa_structure (bm_params coded)) /\ bem_castable (bm_params coded).
Proof. exact (conj coded_building (conj digit_writes (conj coded_nine (conj coded_schedule (conj coded_shading coded_bem))))). Qed.
Example C69_case_office : exists e, weather_of (decimal_reader : reader xr) demoFiles (tx "office.ism") (mkBuildingModel smallOffice (tx "ORD.epw")) e.
Proof. exact office_demo. Qed.

(** ** C70, false as stated: the comparison has the right months, results and differences, but
    counts the months from 0 where all other tables count from 1. *)
Theorem C70_refuted : forall T (N : Num T) (show : nat -> T -> text) (rd : reader T) files, (forall d, writes_cells (show d)) ->
  forall b0 ism defaults b e md code out, building_of rd files b0 ism defaults b -> weather_of rd files ism b e ->
  main show rd files b0 (mkOptions (Some ism) defaults (Some (if md : bool then tx "md" else tx "csv")) false false false) = Ok (code, out) ->
  exists tables ws mo ho r, monthly_input (fun x => rd_atof rd (show 6 x)) e tables /\ hourly_input e ws /\
    simulateMonthly (bm_params b) tables = Ok mo /\ simulate (bm_params b) ws no_ratios true = Ok (ho, r) /\
    comparison_text 0 md (show 6) mo ho out /\ ~ comparison_text 1 md (show 6) mo ho out.
Proof. exact @C70_l. Qed.
Print Assumptions C70_refuted.

(** ** C71 *)
(** Without a request the program prints the monthly table; without a building file it ends with
    code 1 and prints nothing on standard output.  The order of several requests is in C69. *)
Theorem C71_default : forall T (N : Num T) (show : nat -> T -> text) (rd : reader T) files, (forall d, writes_cells (show d)) ->
  forall b0 i d, main show rd files b0 (mkOptions i d None false false false) = main show rd files b0 (mkOptions i d None true false false).
Proof. exact @C71_default_l. Qed.
Print Assumptions C71_default.
Theorem C71_no_file : forall T (N : Num T) (show : nat -> T -> text) (rd : reader T) files b0 o,
  op_ism o = None -> main show rd files b0 o = Ok (1%Z, []).
Proof. exact @C71_no_file_l. Qed.
Print Assumptions C71_no_file.
Example C71_case : requests (Some (tx "csv")) true false true = [Compare false; MonthlyTable; HourlyTable false] /\
  requests None false false false = [MonthlyTable] /\ requests (Some (tx "CSV")) false false false = [UnknownCompare].
Proof. repeat split; reflexivity. Qed.

(** ** C72, false as stated: asking for the monthly table first changes the hourly one, unless every
    number of the hourly table reads the same with 6 and with 10 digits. *)
Theorem C72_digits : forall T (N : Num T) (show : nat -> T -> text) (rd : reader T) files, (forall d, writes_cells (show d)) ->
  forall b0 ism defaults b e agg out1 out2 out3, building_of rd files b0 ism defaults b -> weather_of rd files ism b e ->
  main show rd files b0 (mkOptions (Some ism) defaults None true false false) = Ok (0%Z, out1) ->
  main show rd files b0 (mkOptions (Some ism) defaults None false agg (negb agg)) = Ok (0%Z, out2) ->
  main show rd files b0 (mkOptions (Some ism) defaults None true agg (negb agg)) = Ok (0%Z, out3) ->
  exists ws rows r, hourly_input e ws /\ simulate (bm_params b) ws no_ratios agg = Ok (rows, r) /\
    (out3 = out1 ++ out2 <-> forall row x, In row rows -> In x row -> show 6 x = show 10 x).
Proof. exact @C72_l. Qed.
Print Assumptions C72_digits.
Theorem C72_refuted : exists (show : nat -> xr -> text) rd files b0 ism out1 out2 out3, (forall d, writes_cells (show d)) /\
  main show rd files b0 (mkOptions (Some ism) None None true false false) = Ok (0%Z, out1) /\
  main show rd files b0 (mkOptions (Some ism) None None false true false) = Ok (0%Z, out2) /\
  main show rd files b0 (mkOptions (Some ism) None None true true false) = Ok (0%Z, out3) /\ out3 <> out1 ++ out2.
Proof. exact C72_refuted_l. Qed.
Print Assumptions C72_refuted.

(** ** C73, false as stated: a missing file is not reported. *)
(** Building or defaults file missing: undefined behaviour for every request for results. *)
Theorem C73_refuted : forall T (N : Num T) (show : nat -> T -> text) (rd : reader T) files, (forall d, writes_cells (show d)) ->
  forall b0 ism o, op_ism o = Some ism -> requests (op_compare o) (op_monthly o) (op_hourlyByMonth o) (op_hourlyByHour o) <> [UnknownCompare] ->
  files ism = None \/ (exists d, op_defaults o = Some d /\ files d = None) -> main show rd files b0 o = UB.
Proof. exact @C73_l. Qed.
Print Assumptions C73_refuted.
(** Weather file missing: undefined behaviour for every command line. *)
Theorem C73_weather_refuted : forall T (N : Num T) (show : nat -> T -> text) (rd : reader T) files b0 ism o b,
  op_ism o = Some ism -> building_of rd files b0 ism (op_defaults o) b ->
  files (bm_weatherFilePath b) = None -> files (resolveFilename ism (bm_weatherFilePath b)) = None -> main show rd files b0 o = UB.
Proof. exact @C73_weather_l. Qed.
Print Assumptions C73_weather_refuted.
(** A building that is rejected while loading ends the program with that exception, before anything
    is printed. *)
Theorem C73_rejected : forall T (N : Num T) (show : nat -> T -> text) (rd : reader T) files b0 ism o x,
  op_ism o = Some ism -> files ism <> None ->
  match op_defaults o with
  | None => loadBuilding rd (files ism) b0 = Throw x
  | Some d => files d <> None /\ loadBuilding2 rd (files ism) (files d) b0 = Throw x
  end -> main show rd files b0 o = Throw x.
Proof. exact @C73_throw_l. Qed.
Print Assumptions C73_rejected.
Example C73_case : demoFiles (tx "missing.ism") = None /\ exists b, building_of (decimal_reader : reader xr) (fun n => if same_text n (tx "a.ism") then Some officeText else None) freshOffice (tx "a.ism") None b /\
  bm_weatherFilePath b = tx "ORD.epw".
Proof. split; [reflexivity|]. eexists. split; [apply office_building|]; reflexivity. Qed.
