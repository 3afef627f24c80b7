(** What a run of the command line program starts from: the building and the weather in its files. *)
From Coq Require Import Ascii String ZArith.
From Verif Require Import Base Num Text M_Params M_Properties M_UserModel M_Epw M_Weather M_Hourly M_Monthly M_Solar M_TimeFrame S_Text S_Epw S_Solar.
Open Scope nat_scope.
Open Scope list_scope.

Section Program.
Context {T : Type} {N : Num T}.
Variable rd : reader T.
Variable files : text -> option text.

(** The building: what the building file says, with or without a file of defaults. *)
Definition building_of (b0 : building_model T) (ism : text) (defaults : option text) (b : building_model T) : Prop :=
  files ism <> None /\
  match defaults with
  | None => loadBuilding rd (files ism) b0 = Ok b
  | Some d => files d <> None /\ loadBuilding2 rd (files ism) (files d) b0 = Ok b
  end.
(** The weather: the file the building names, as it stands or in the directory of the building
    file; seven columns for every hour of the year. *)
Definition weather_of (ism : text) (b : building_model T) (e : epw T) : Prop :=
  exists name content,
    (name = bm_weatherFilePath b \/ files (bm_weatherFilePath b) = None /\ name = resolveFilename ism (bm_weatherFilePath b)) /\
    files name = Some content /\ loadFile rd (Some content) newEpw = Ok e /\ year_table (ep_data e) /\ ep_site e <> None.

(** The weather of each hour, for the hourly simulation: wind speed and dry bulb temperature of
    that record, the radiation on the eight vertical surfaces that [calculate] finds for that hour,
    and the record's global horizontal radiation for the roof. *)
Definition hourly_input (e : epw T) (ws : list (weather T)) : Prop :=
  exists frame s0 s, timeFrame = Ok frame /\ newSolar e PI_ = Ok s0 /\ calculate frame (ep_data e) s0 = Ok s /\
    Z.of_nat (List.length ws) = 8760%Z /\
    forall i w, nth_error ws i = Some w ->
      cell (ep_data e) 6 i = Some (we_wind w) /\ cell (ep_data e) 0 i = Some (we_temp w) /\
      exists walls roof, nth_error (so_eglobe s) i = Some walls /\ List.length walls = 8 /\
        cell (ep_data e) 3 i = Some roof /\ we_sol w = walls ++ [roof].
(** The tables of the monthly simulation: means over each month, and over each clock hour of each
    month; [got] is what becomes of a number that is written as text and read again. *)
Definition monthly_input (got : T -> T) (e : epw T) (w : mweather T) : Prop :=
  exists dbt dpt rh egh eb ed wind frame s0 s, ep_data e = [dbt; dpt; rh; egh; eb; ed; wind] /\
    timeFrame = Ok frame /\ newSolar e PI_ = Ok s0 /\ calculate frame (ep_data e) s0 = Ok s /\
    mw_mdbt w = map got (monthly_means dbt) /\ mw_mwind w = map got (monthly_means wind) /\ mw_mEgh w = map got (monthly_means egh) /\
    mw_mhdbt w = map (map got) (hourly_means dbt) /\ mw_mhEgh w = map (map got) (hourly_means egh) /\
    List.length (mw_msolar w) = 12 /\ (forall r, In r (mw_msolar w) -> List.length r = 8) /\
    forall k j, k < 12 -> j < 8 -> cell (mw_msolar w) k j = option_map got (nth_error (monthly_means (surface_series j (so_eglobe s))) k).
End Program.

(** The opening days and hours can be converted to whole numbers. *)
Definition schedule_castable {T} {N : Num T} (p : params_t T) : Prop :=
  let po := pa_population p in
  ntrunc (po_daysStart po) <> None /\ ntrunc (po_daysEnd po) <> None /\ ntrunc (po_hoursStart po) <> None /\ ntrunc (po_hoursEnd po) <> None.
