(** standalone_main.cpp: from the files on disk to the text on standard output. *)
From Coq Require Import Ascii String ZArith.
From Verif Require Import Base Num Text M_Text M_TimeFrame M_Params M_Properties M_UserModel M_Epw M_Solar M_IsoText M_Weather M_Hourly M_Monthly.
Open Scope nat_scope.
Open Scope list_scope.

(** Lines 24-26, 63-65 and 100-101 of standalone_main.cpp, as all line numbers below without a file name. *)
Definition endUseNames : list text :=
  [tx "ElecHeat"; tx "ElecCool"; tx "ElecIntLights"; tx "ElecExtLights"; tx "ElecFans"; tx "ElecPump"; tx "ElecEquipInt";
   tx "ElecEquipExt"; tx "ElectDHW"; tx "GasHeat"; tx "GasCool"; tx "GasEquip"; tx "GasDHW"].
Definition endUseHeader : text :=
  tx ",ElecHeat,ElecCool,ElecIntLights,ElecExtLights,ElecFans,ElecPump,ElecEquipInt,ElecEquipExt,ElectDHW,GasHeat,GasCool,GasEquip,GasDHW".

Section Main.
Context {T : Type} {N : Num T}.
(** [show d x] is what [stream << x] writes for a double when the stream's precision is d; a new
    stream has precision 6. *)
Variable show : nat -> T -> text.
Variable rd : reader T.
Variable files : text -> option text.

(** HourlyModel.cpp 39-53 and the arguments of 62-71: the weather of each hour. *)
Definition hourRows (e : epw T) : outcome (list (M_Hourly.weather T)) :=
  do frame <- timeFrame;
  do wind <- vget (ep_data e) WSPD;
  do temp <- vget (ep_data e) DBT;
  do pos <- newSolar e PI_;
  do pos <- calculate frame (ep_data e) pos;
  do egh <- vget (ep_data e) EGH;
  do radiation <- omap (fun i => do r <- vget (so_eglobe pos) i; do g <- vget egh i; Ok (r ++ [g])) (seq 0 (length (so_eglobe pos)));
  omap (fun i => do w <- vget wind i; do t <- vget temp i; do r <- vget radiation i; Ok (mkWeather w t r)) (seq 0 slices).
(** HourlyModel::simulate on the model that toHourlyModel returned (UserModel.cpp 49-58). *)
Definition runHourly (u : user T) (aggregateByMonth : bool) : outcome (list (list T)) :=
  do m <- create u;
  do ws <- hourRows (hourlyWeather u m);
  do r <- simulate (cr_params m) ws no_ratios aggregateByMonth;
  Ok (fst r).

(** The tables MonthlyModel.cpp reads through location.weather().  An element that was never
    assigned is undefined; simplification: also when the simulation happens not to read it. *)
Definition assignedCell (x : option T) : outcome T := match x with Some v => Ok v | None => UB end.
Definition assignedRow : list (option T) -> outcome (list T) := omap assignedCell.
Definition assignedTables (w : M_IsoText.weather T) : outcome (mweather T) :=
  do so <- omap assignedRow (wd_msolar w);
  do hd <- omap assignedRow (wd_mhdbt w);
  do he <- omap assignedRow (wd_mhEgh w);
  do me <- assignedRow (wd_mEgh w);
  do md <- assignedRow (wd_mdbt w);
  do mw <- assignedRow (wd_mwind w);
  Ok (mkMw so hd he me md mw).
(** MonthlyModel::simulate on the model that toMonthlyModel returned (UserModel.cpp 60-73). *)
Definition runMonthly (u : user T) : outcome (list (list T)) :=
  do m <- create u;
  do w <- monthlyWeather u m;
  do w <- assignedTables w;
  simulateMonthly (cr_params m) w.

(** 29, 46-50 and 68, 85-89: one line of a table.  EndUses holds 20 numbers of which the
    simulations fill the first 13 (EndUses.hpp 12-20); a row of the model has just those. *)
Definition tableLine (digits : nat) (results : list (list T)) (i : nat) : outcome text :=
  do row <- vget results i;
  do cells <- omap (fun j => do x <- vget row j; Ok (tx ", " ++ show digits x)) (seq 0 13);
  Ok (showInt (i + 1) ++ concat cells ++ [newline]).
(** 18-52.  The last component is the precision the stream is left with: std::setprecision
    stays in force. *)
Definition runMonthlySimulation (u : user T) (digits : nat) : outcome (text * nat) :=
  do results <- runMonthly u;
  do ls <- omap (tableLine 10 results) (seq 0 12);
  Ok (tx "Monthly Results:" ++ [newline] ++ tx "Month" ++ endUseHeader ++ [newline] ++ concat ls, 10).
(** 54-91. *)
Definition runHourlySimulation (u : user T) (aggregateByMonth : bool) (digits : nat) : outcome (text * nat) :=
  do results <- runHourly u aggregateByMonth;
  let monthOrHour := if aggregateByMonth then tx "month" else tx "hour" in
  let numberOfResults := if aggregateByMonth then 12 else Z.to_nat 8760 in
  do ls <- omap (tableLine digits results) (seq 0 numberOfResults);
  Ok (tx "Hourly results by " ++ monthOrHour ++ tx ":" ++ [newline] ++ monthOrHour ++ endUseHeader ++ [newline] ++ concat ls, digits).

(** 116-121. *)
Definition compareLine (markdown : bool) (digits : nat) (monthlyResults hourlyResults : list (list T)) (endUse month : nat) : outcome text :=
  let delim := if markdown then tx " | " else tx ", " in
  do mr <- vget monthlyResults month; do monthlyResult <- vget mr endUse;
  do hr <- vget hourlyResults month; do hourlyResult <- vget hr endUse;
  Ok ((if markdown then tx "| " else []) ++
      showInt month ++ delim ++ show digits monthlyResult ++ delim ++ show digits hourlyResult ++ delim ++ show digits (nsub monthlyResult hourlyResult) ++
      (if markdown then tx " |" else []) ++ [newline]).
(** 105-124: the table of one end use. *)
Definition compareTable (markdown : bool) (digits : nat) (monthlyResults hourlyResults : list (list T)) (endUse : nat) : outcome text :=
  let delim := if markdown then tx " | " else tx ", " in
  do name <- vget endUseNames endUse;
  do ls <- omap (compareLine markdown digits monthlyResults hourlyResults endUse) (seq 0 12);
  Ok ((if markdown then tx "| " else []) ++
      tx "Month" ++ delim ++ tx "Monthly " ++ name ++ delim ++ tx "Hourly " ++ name ++ delim ++ tx "Difference" ++
      (if markdown then tx " |" else []) ++ [newline] ++
      (if markdown then tx "|---|---|---|---|" ++ [newline] else []) ++
      concat ls ++ [newline]).
(** 93-126. *)
Definition compare (u : user T) (markdown : bool) (digits : nat) : outcome (text * nat) :=
  do hourlyResults <- runHourly u true;
  do monthlyResults <- runMonthly u;
  do tables <- omap (compareTable markdown digits monthlyResults hourlyResults) (seq 0 13);
  Ok (concat tables, digits).

(** The command line after boost::program_options has read it (130-161); its syntax is not
    modelled.  [None] or [false] is an option that is not there. *)
Record options := mkOptions {
  op_ism : option text;
  op_defaults : option text;
  op_compare : option text;
  op_monthly : bool;
  op_hourlyByMonth : bool;
  op_hourlyByHour : bool }.

(** A part of main: what was printed so far, with the stream's precision. *)
Definition andThen (st : outcome (text * nat)) (on : bool) (part : nat -> outcome (text * nat)) : outcome (text * nat) :=
  do (out, digits) <- st;
  if on then do (more, digits') <- part digits; Ok (out ++ more, digits') else Ok (out, digits).
Definition is_some {A} (x : option A) : bool := match x with Some _ => true | None => false end.
(** 201-210. *)
Definition compareOption (u : user T) (kind : option text) (digits : nat) : outcome (text * nat) :=
  match kind with
  | None => Ok ([], digits)
  | Some k =>
      if text_eqb k (tx "md") then compare u true digits
      else if text_eqb k (tx "csv") then compare u false digits
      else Ok (tx "No output type given for compare. Please use 'md' or 'csv'." ++ [newline], digits)
  end.
(** 199-229. *)
Definition runs (u : user T) (o : options) : outcome text :=
  let st := Ok ([], 6) in
  let st := andThen st (is_some (op_compare o)) (compareOption u (op_compare o)) in
  let st := andThen st (op_monthly o) (runMonthlySimulation u) in
  let st := andThen st (op_hourlyByMonth o) (runHourlySimulation u true) in
  let st := andThen st (op_hourlyByHour o) (runHourlySimulation u false) in
  let simulationRan := is_some (op_compare o) || op_monthly o || op_hourlyByMonth o || op_hourlyByHour o in
  do (out, _) <- andThen st (negb simulationRan) (runMonthlySimulation u);
  Ok out.
(** 128-231: the exit code and standard output.  [b] is the building a new UserModel has.  An
    exception of load is not caught; DEBUG_ISO_MODEL_SIMULATION is false (MonthlyModel.hpp 54). *)
Definition main (b : building_model T) (o : options) : outcome (Z * text) :=
  match op_ism o with
  | None => Ok (1%Z, [])
  | Some ism =>
      let fmt := show 6 in
      let (u, r) := match op_defaults o with
                    | Some d => load2 fmt rd files ism d (newUser b)
                    | None => load fmt rd files ism (newUser b)
                    end in
      do _ <- r;
      do out <- runs u o;
      Ok (0%Z, out)
  end.
End Main.
