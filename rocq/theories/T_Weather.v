(** C43, C50, C51, C52, C53, C54, C56: the weather summary and the weather of a UserModel. *)
From Coq Require Import Ascii String ZArith Lia Reals.
From Verif Require Import Base Num Xr Text M_Text M_TimeFrame M_Properties M_UserModel M_Epw M_Solar M_IsoText M_Weather S_Text S_Epw S_Solar S_Weather S_History E_Decimal E_OfficeFile L_IsoText L_Weather L_Weather2 L_Weather3.
Open Scope nat_scope.
Open Scope list_scope.

(** ** C43 *)
(** Every summary that is written is read back into the same months, hours and surfaces; what is
    read is the number that was written there ([fmt]) and read again ([rd_atof]). *)
Theorem C43_text : forall T (N : Num T) (fmt : T -> text) (rd : reader T) (a : averages T), writes_numbers fmt ->
  length (av_mdbt a) = 12 -> length (av_mwind a) = 12 -> length (av_megh a) = 12 ->
  length (av_hdbt a) = 12 -> Forall (fun r => length r = 24) (av_hdbt a) ->
  length (av_hegh a) = 12 -> Forall (fun r => length r = 24) (av_hegh a) ->
  length (av_msol a) = 12 -> Forall (fun r => length r = 8) (av_msol a) ->
  let got x := Some (rd_atof rd (fmt x)) in
  exists content w, isoText fmt a = Ok content /\ readIso rd content = Ok w /\
    wd_mdbt w = map got (av_mdbt a) /\ wd_mwind w = map got (av_mwind a) /\ wd_mEgh w = map got (av_megh a) /\
    wd_mhdbt w = map (map got) (av_hdbt a) /\ wd_mhEgh w = map (map got) (av_hegh a) /\ wd_msolar w = map (map got) (av_msol a).
Proof. exact @C43_text_l. Qed.
Print Assumptions C43_text.
(** The weather tables of a loaded year are its monthly and hour-of-day means. *)
Theorem C43_loaded : forall T (N : Num T) (fmt : T -> text) (rd : reader T) (e : epw T) lat lon tz dbt dpt rh egh eb ed wind, writes_numbers fmt ->
  ep_site e = Some (lat, lon, tz) -> ep_data e = [dbt; dpt; rh; egh; eb; ed; wind] -> year_table (ep_data e) ->
  let got x := Some (rd_atof rd (fmt x)) in
  exists frame s0 s w, timeFrame = Ok frame /\ newSolar e PI_ = Ok s0 /\ calculate frame (ep_data e) s0 = Ok s /\ initializeSolar fmt rd e = Ok w /\
    wd_mdbt w = map got (monthly_means dbt) /\ wd_mwind w = map got (monthly_means wind) /\ wd_mEgh w = map got (monthly_means egh) /\
    wd_mhdbt w = map (map got) (hourly_means dbt) /\ wd_mhEgh w = map (map got) (hourly_means egh) /\
    forall k j, k < 12 -> j < 8 -> cell (wd_msolar w) k j = option_map got (nth_error (monthly_means (surface_series j (so_eglobe s))) k).
Proof. exact @C43_loaded_l. Qed.
Print Assumptions C43_loaded.
(** A way of writing numbers that meets the hypothesis, and a text that is read. *)
Example C43_writer : writes_numbers whole.
Proof. exact whole_writes. Qed.
Example C43_case : forall T (N : Num T),
  exists w, readIso (@decimal_reader T N) (tx "mdbt" ++ [newline] ++ tx "0,1.5" ++ [newline] ++ tx "1,2" ++ [newline]) = Ok w /\
    firstn 3 (wd_mdbt w) = [Some (rd_atof decimal_reader (tx "1.5")); Some (rd_atof decimal_reader (tx "2")); None].
Proof. intros. eexists. split; reflexivity. Qed.

(** ** C50 *)
(** A base path with a directory: the directory, then the weather path without a leading
    separator; both kinds of separator become slashes.  Missing: a base path without directory. *)
Theorem C50_directory_partial : forall d sep f rel r D R, is_separator sep -> Forall (fun c => ~ is_separator c) f ->
  (rel = r /\ (forall c t, r = c :: t -> ~ is_separator c) \/ exists c, is_separator c /\ rel = c :: r) ->
  unix_path (d ++ [sep]) D -> unix_path r R -> resolveFilename (d ++ sep :: f) rel = D ++ R.
Proof. exact C50_directory_l. Qed.
Print Assumptions C50_directory_partial.
Example C50_case : resolveFilename (tx "data\office/a.ism") (tx "\w\ORD.epw") = tx "data/office/w/ORD.epw".
Proof. reflexivity. Qed.
(** Without a directory the first character of the building file's name is put in front. *)
Theorem C50_bare_refuted : exists base rel, Forall (fun c => ~ is_separator c) base /\ Forall (fun c => ~ is_separator c) rel /\ resolveFilename base rel <> rel.
Proof. exact C50_bare_refuted_l. Qed.
Print Assumptions C50_bare_refuted.

(** ** C51 *)
(** After every history: loading the weather file makes both models use what that file holds. *)
Theorem C51_file : forall T (N : Num T) (fmt : T -> text) (rd : reader T) files u u', reached fmt rd u -> loadWeather fmt rd files u = Ok u' -> exists e w,
  loadFile rd (files (weatherFile files u)) (us_edata u) = Ok e /\ initializeSolar fmt rd e = Ok w /\
  forall m, create u' = Ok m -> hourlyWeather u' m = e /\ monthlyWeather u' m = Ok w.
Proof. exact @C51_file_l. Qed.
Print Assumptions C51_file.
(** So does a block for a place not loaded before.  Missing: a place loaded before. *)
Theorem C51_new_block_partial : forall T (N : Num T) (fmt : T -> text) (rd : reader T) size values u u' lat lon,
  reached fmt rd u -> loadWeatherBlock fmt rd size values u = Ok u' ->
  nth_error values 0 = Some lat -> nth_error values 1 = Some lon -> cache_find (lat, lon) (us_cache u) = None -> exists e w,
  loadBlock size values (us_edata u) = Ok e /\ initializeSolar fmt rd e = Ok w /\
  exists m, create u' = Ok m /\ hourlyWeather u' m = e /\ monthlyWeather u' m = Ok w.
Proof. exact @C51_new_block_l. Qed.
Print Assumptions C51_new_block_partial.
(** For such a place nothing is read: the hourly model gets what was loaded last, wherever that
    was, and the monthly model what the cache holds. *)
Theorem C51_cached : forall T (N : Num T) (fmt : T -> text) (rd : reader T) size values u u' lat lon p, loadWeatherBlock fmt rd size values u = Ok u' ->
  nth_error values 0 = Some lat -> nth_error values 1 = Some lon -> cache_find (lat, lon) (us_cache u) = Some p ->
  exists m, create u' = Ok m /\ hourlyWeather u' m = us_edata u /\ monthlyWeather u' m = vget (us_heap u) p.
Proof. exact @C51_hit_l. Qed.
Print Assumptions C51_cached.
(** One place, another place, the first place again: the hourly model has the other place's data. *)
Theorem C51_return_refuted : forall (fmt : xr -> text) (rd : reader xr), writes_numbers fmt -> forall b, exists a1 a2 u1 u2 u3 m,
  loadWeatherBlock fmt rd 8760 a1 (newUser b) = Ok u1 /\ loadWeatherBlock fmt rd 8760 a2 u1 = Ok u2 /\ loadWeatherBlock fmt rd 8760 a1 u2 = Ok u3 /\
  create u3 = Ok m /\ cell (ep_data (hourlyWeather u3 m)) 0 0 <> nth_error a1 3.
Proof. exact C51_hit_refuted_l. Qed.
Print Assumptions C51_return_refuted.
(** New values for the same place are ignored by both models. *)
Theorem C51_same_place_refuted : forall (fmt : xr -> text) (rd : reader xr), writes_numbers fmt -> forall b, exists a1 a2 u1 u2 m1 m2,
  loadWeatherBlock fmt rd 8760 a1 (newUser b) = Ok u1 /\ create u1 = Ok m1 /\ loadWeatherBlock fmt rd 8760 a2 u1 = Ok u2 /\ create u2 = Ok m2 /\
  nth_error a1 3 <> nth_error a2 3 /\ hourlyWeather u2 m2 = hourlyWeather u1 m1 /\ monthlyWeather u2 m2 = monthlyWeather u1 m1.
Proof. exact C51_same_place_l. Qed.
Print Assumptions C51_same_place_refuted.
(** Objects these theorems speak of: loaded from a block, cache not empty. *)
Example C51_case : forall b, exists values u, loadWeatherBlock whole decimal_reader 8760 values (newUser b) = Ok u /\
  reached whole decimal_reader u /\ us_cache u <> [].
Proof. intros b. exact (C51_case_l whole decimal_reader b whole_writes). Qed.

(** ** C52 *)
(** Later blocks leave the data of an existing monthly model alone.  Missing: hourly models, and
    later weather files. *)
Theorem C52_blocks_partial : forall T (N : Num T) (fmt : T -> text) (rd : reader T) u u' m,
  reached fmt rd u -> create u = Ok m -> block_loads fmt rd u u' -> monthlyWeather u' m = monthlyWeather u m.
Proof. exact @C52_blocks_l. Qed.
Print Assumptions C52_blocks_partial.
(** An hourly model reads the block loaded after it was made. *)
Theorem C52_hourly_refuted : forall (fmt : xr -> text) (rd : reader xr), writes_numbers fmt -> forall b, exists a1 a2 u1 u2 m,
  loadWeatherBlock fmt rd 8760 a1 (newUser b) = Ok u1 /\ create u1 = Ok m /\ loadWeatherBlock fmt rd 8760 a2 u1 = Ok u2 /\
  cell (ep_data (hourlyWeather u2 m)) 0 0 <> cell (ep_data (hourlyWeather u1 m)) 0 0.
Proof. exact C52_refuted_l. Qed.
Print Assumptions C52_hourly_refuted.
(** A later weather file replaces the data of existing models of both kinds. *)
Theorem C52_file_overwrites : forall T (N : Num T) (fmt : T -> text) (rd : reader T) files u u' m,
  loadWeather fmt rd files u = Ok u' -> create u = Ok m -> us_location u = Some (us_weather u) ->
  exists w, initializeSolar fmt rd (us_edata u') = Ok w /\ monthlyWeather u' m = Ok w /\ hourlyWeather u' m = us_edata u'.
Proof. exact @C52_file_l. Qed.
Print Assumptions C52_file_overwrites.

(** ** C53 *)
(** A load that returns leaves the object valid exactly when the files were there. *)
Theorem C53_load : forall T (N : Num T) (fmt : T -> text) (rd : reader T) files f u u', load fmt rd files f u = (u', Ok tt) ->
  (us_valid u' = Some true <-> files f <> None /\ files (weatherFile files u') <> None) /\ us_valid u' <> None.
Proof. exact @C53_load_l. Qed.
Print Assumptions C53_load.
Theorem C53_load_defaults : forall T (N : Num T) (fmt : T -> text) (rd : reader T) files f d u u', load2 fmt rd files f d u = (u', Ok tt) ->
  (us_valid u' = Some true <-> files f <> None /\ files d <> None /\ files (weatherFile files u') <> None) /\ us_valid u' <> None.
Proof. exact @C53_load2_l. Qed.
Print Assumptions C53_load_defaults.
(** Creating a model is defined for valid objects only. *)
Theorem C53_create : forall T (u : user T), (exists m, create u = Ok m) <-> us_valid u = Some true.
Proof. exact @C53_create_l. Qed.
Print Assumptions C53_create.
Example C53_case : forall T (N : Num T) (fmt : T -> text) b, exists u,
  load fmt decimal_reader (fun _ => None) (tx "a.ism") (newUser b) = (u, Ok tt) /\ us_valid u = Some false.
Proof. intros. eexists. split; reflexivity. Qed.
(** A load that throws leaves the object valid. *)
Theorem C53_throw_refuted : forall T (N : Num T) (fmt : T -> text), exists (rd : reader T) files f u u' x,
  load fmt rd files f u = (u', Throw x) /\ us_valid u' = Some true.
Proof. exact C53_throw_refuted_l. Qed.
Print Assumptions C53_throw_refuted.
(** A block makes an object valid that has no building loaded. *)
Theorem C53_block_refuted : forall (fmt : xr -> text) (rd : reader xr), writes_numbers fmt -> forall b, exists values u,
  loadWeatherBlock fmt rd 8760 values (newUser b) = Ok u /\ us_valid u = Some true /\ us_building u = b.
Proof. exact C53_block_l. Qed.
Print Assumptions C53_block_refuted.
(** Setting the weather makes an object valid although the weather file is missing. *)
Theorem C53_missing_refuted : forall (fmt : xr -> text) (rd : reader xr), writes_numbers fmt -> forall b : building_model xr, exists u u',
  reached fmt rd u /\ loadAndSetWeather fmt rd (fun _ => None) u = Ok u' /\ us_valid u' = Some true.
Proof. exact C53_missing_l. Qed.
Print Assumptions C53_missing_refuted.
(** Before the first load the flag has no value. *)
Theorem C53_fresh_refuted : forall T (N : Num T) (b : building_model T), us_valid (newUser b) = None /\ create (newUser b) = UB.
Proof. exact C53_fresh_l. Qed.
Print Assumptions C53_fresh_refuted.

(** ** C54 *)
(** On coordinates that are numbers the order is strict and total. *)
Theorem C54_order :
  (forall k : xr * xr, latlon_lt k k = false) /\
  (forall a b c : xr * xr, key_numbers a -> key_numbers b -> key_numbers c -> latlon_lt a b = true -> latlon_lt b c = true -> latlon_lt a c = true) /\
  (forall a b : xr * xr, key_numbers a -> key_numbers b -> (latlon_lt a b = false /\ latlon_lt b a = false <-> a = b)).
Proof. exact C54_order_l. Qed.
Print Assumptions C54_order.
Theorem C54_lookup : forall k (c : list ((xr * xr) * nat)), key_numbers k -> (forall k' p, In (k', p) c -> key_numbers k') ->
  match cache_find k c with
  | Some p => In (k, p) c
  | None => forall p, ~ In (k, p) c
  end.
Proof. exact C54_lookup_l. Qed.
Print Assumptions C54_lookup.
Example C54_case : key_numbers (Fin (Rlit 4198 100), Fin (- Rlit 8792 100)).
Proof. split; discriminate. Qed.
(** With not-a-number it is not even a weak order: 1 and NaN, NaN and 2 are equivalent, 1 < 2. *)
Theorem C54_nan_refuted : exists a b c : xr * xr, a <> b /\ latlon_lt a b = false /\ latlon_lt b a = false /\ latlon_lt b c = false /\ latlon_lt c b = false /\ latlon_lt a c = true.
Proof. exact C54_nan_l. Qed.
Print Assumptions C54_nan_refuted.

(** ** C56 *)
Theorem C56_recover : forall sep fs l, Forall (fun f => ~ In sep f) (fs ++ [l]) -> l <> [] ->
  stringSplit (joined sep (fs ++ [l])) sep true = fs ++ [l].
Proof. exact stringSplit_joined. Qed.
Print Assumptions C56_recover.
Theorem C56_rejoin : forall sep line,
  Forall (fun f => ~ In sep f) (stringSplit line sep true) /\
  (joined sep (stringSplit line sep true) = line \/ joined sep (stringSplit line sep true) ++ [sep] = line).
Proof. exact stringSplit_rejoin. Qed.
Print Assumptions C56_rejoin.
Theorem C56_drop : forall sep line, stringSplit line sep false = non_empty (stringSplit line sep true).
Proof. exact stringSplit_drop. Qed.
Print Assumptions C56_drop.
Example C56_case : stringSplit (tx "3,,2.5") "," true = [tx "3"; tx ""; tx "2.5"] /\ stringSplit (tx "3,,2.5,") "," true = [tx "3"; tx ""; tx "2.5"].
Proof. split; reflexivity. Qed.
