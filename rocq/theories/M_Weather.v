(** UserModel: weather files and blocks, the cache, and the models created. *)
From Coq Require Import Ascii String ZArith.
From Verif Require Import Base Num Text M_Text M_TimeFrame M_Params M_Properties M_UserModel M_Epw M_Solar M_IsoText.
Open Scope nat_scope.
Open Scope char_scope.
Open Scope list_scope.

(** UserModel.cpp 353-377.  Backslash as separator. *)
Definition slash (c : ascii) : ascii := if Ascii.eqb c "\" then "/" else c.
(** The position of the last separator before or at which the scan stands, 0 if there is none. *)
Fixpoint lastSeparator (i last : nat) (s : text) : nat :=
  match s with
  | [] => last
  | c :: t => lastSeparator (S i) (if Ascii.eqb c "/" then i else last) t
  end.
Definition resolveFilename (baseFile relativeFile : text) : text :=
  let result := map slash baseFile in
  let result := substr result 0 (lastSeparator 0 0 result + 1) in
  let rest := match relativeFile with
              | c :: t => if Ascii.eqb c "/" || Ascii.eqb c "\" then t else relativeFile
              | [] => []
              end in
  result ++ map slash rest.

Section Weather.
Context {T : Type} {N : Num T}.
Variable fmt : T -> text.
Variable rd : reader T.
(** The files on disk: [None] when there is none with this name. *)
Variable files : text -> option text.

(** UserModel.cpp 405-411. *)
Definition latlon_lt (a b : T * T) : bool :=
  if nlt (fst a) (fst b) then true
  else if nlt (fst b) (fst a) then false
  else nlt (snd a) (snd b).

(** UserModel.hpp 2258-2290.  WeatherData objects are entries of [us_heap]; [us_weather], the
    location's pointer and the cache hold their index.  The EpwData object is created once, in the
    constructor, and everything shares it.  [us_valid] is [None] until it is assigned. *)
Record user := mkUser {
  us_building : building_model T;
  us_dataFile : text;
  us_valid : option bool;
  us_cache : list ((T * T) * nat);
  us_weather : nat;
  us_location : option nat;
  us_edata : epw T;
  us_heap : list (weather T) }.
(** UserModel.cpp 26-29. *)
Definition newUser (b : building_model T) : user :=
  mkUser b [] None [] 0 None newEpw [newWeather].

(** std::map::find: the entry whose key is neither less nor greater.  Simplification: a linear
    search; the same entry for keys that are numbers. *)
Definition cache_find (key : T * T) (c : list ((T * T) * nat)) : option nat :=
  option_map snd (find (fun e => negb (latlon_lt (fst e) key) && negb (latlon_lt key (fst e))) c).

(** initializeSolar (UserModel.cpp 494-500) assigns the tables of the object [_weather] points to. *)
Definition storeSolar (u : user) : outcome user :=
  do w <- initializeSolar fmt rd (us_edata u);
  do h <- vset (us_heap u) (us_weather u) w;
  Ok (mkUser (us_building u) (us_dataFile u) (us_valid u) (us_cache u) (us_weather u) (us_location u) (us_edata u) h).
Definition set_edata (e : epw T) (u : user) : user :=
  mkUser (us_building u) (us_dataFile u) (us_valid u) (us_cache u) (us_weather u) (us_location u) e (us_heap u).
(** location.setWeatherData(_weather). *)
Definition place (u : user) : user :=
  mkUser (us_building u) (us_dataFile u) (us_valid u) (us_cache u) (us_weather u) (Some (us_weather u)) (us_edata u) (us_heap u).
Definition set_valid (b : bool) (u : user) : user :=
  mkUser (us_building u) (us_dataFile u) (Some b) (us_cache u) (us_weather u) (us_location u) (us_edata u) (us_heap u).
Definition set_building (b : building_model T) (u : user) : user :=
  mkUser b (us_dataFile u) (us_valid u) (us_cache u) (us_weather u) (us_location u) (us_edata u) (us_heap u).
Definition set_dataFile (f : text) (u : user) : user :=
  mkUser (us_building u) f (us_valid u) (us_cache u) (us_weather u) (us_location u) (us_edata u) (us_heap u).

Definition exists_file (f : text) : bool := match files f with Some _ => true | None => false end.
(** The file name loadWeather uses, and whether it is there (UserModel.cpp 381-391). *)
Definition weatherFile (u : user) : text :=
  let path := bm_weatherFilePath (us_building u) in
  if exists_file path then path else resolveFilename (us_dataFile u) path.
(** UserModel.cpp 379-397. *)
Definition loadWeather (u : user) : outcome user :=
  let f := weatherFile u in
  let u := if exists_file f then u else set_valid false u in
  do e <- loadFile rd (files f) (us_edata u);
  do u <- storeSolar (set_edata e u);
  Ok (place u).
(** UserModel.cpp 399-403. *)
Definition loadAndSetWeather (u : user) : outcome user := do u <- loadWeather u; Ok (set_valid true u).

(** UserModel.cpp 413-435. *)
Definition loadWeatherBlock (size : Z) (values : list T) (u : user) : outcome user :=
  do lat <- vget values 0;
  do lon <- vget values 1;
  do u <- match cache_find (lat, lon) (us_cache u) with
          | None =>
              let p := List.length (us_heap u) in
              let u := mkUser (us_building u) (us_dataFile u) (us_valid u) (((lat, lon), p) :: us_cache u) p
                              (us_location u) (us_edata u) (us_heap u ++ [newWeather]) in
              do e <- loadBlock size values (us_edata u);
              storeSolar (set_edata e u)
          | Some p =>
              Ok (mkUser (us_building u) (us_dataFile u) (us_valid u) (us_cache u) p (us_location u) (us_edata u) (us_heap u))
          end;
  Ok (set_valid true (place u)).

(** UserModel.cpp 503-520 and 522-553.  The first component is the object afterwards, also when the
    call throws; simplification: then the parameters already assigned are not shown. *)
Definition loadAfter (building : outcome (building_model T)) (u : user) : user * outcome unit :=
  match building with
  | Ok b =>
      let u := set_building b u in
      match loadWeather u with
      | Ok u => (u, Ok tt)
      | Throw x => (u, Throw x)
      | UB => (u, UB)
      end
  | Throw x => (u, Throw x)
  | UB => (u, UB)
  end.
Definition load (buildingFile : text) (u : user) : user * outcome unit :=
  let u := set_valid true (set_dataFile buildingFile u) in
  if exists_file buildingFile then loadAfter (loadBuilding rd (files buildingFile) (us_building u)) u
  else (set_valid false u, Ok tt).
Definition load2 (buildingFile defaultsFile : text) (u : user) : user * outcome unit :=
  let u := set_valid true (set_dataFile buildingFile u) in
  if exists_file buildingFile then
    if exists_file defaultsFile then
      loadAfter (loadBuilding2 rd (files buildingFile) (files defaultsFile) (us_building u)) u
    else (set_valid false u, Ok tt)
  else (set_valid false u, Ok tt).

(** A created simulation (UserModel.cpp 35-73): copies of the parameters and of the location, whose
    weather is a pointer; the EpwData pointer is the one every model of this user model has.
    Creating from a model that is not valid dereferences a null pointer; reading [_valid] before it
    is assigned is undefined. *)
Record created := mkCreated { cr_params : params_t T; cr_weather : option nat }.
Definition create (u : user) : outcome created :=
  match us_valid u with
  | Some true => Ok (mkCreated (bm_params (us_building u)) (us_location u))
  | _ => UB
  end.
(** What the simulations read when they run: HourlyModel.cpp 42-51 through the EpwData pointer,
    MonthlyModel.cpp 355, 612, 1077, 1108 through the location.  A null pointer is undefined. *)
Definition hourlyWeather (u : user) (m : created) : epw T := us_edata u.
Definition monthlyWeather (u : user) (m : created) : outcome (weather T) :=
  match cr_weather m with None => UB | Some p => vget (us_heap u) p end.
End Weather.
Arguments user T : clear implicits.
Arguments created T : clear implicits.
