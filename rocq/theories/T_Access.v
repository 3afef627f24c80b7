(** C74-C76: the setters and getters of the parameters. *)
From Coq Require Import Ascii String Reals.
From Verif Require Import Base Num Xr Text M_Text M_Properties M_Params M_UserModel M_Access.
From Verif Require Import S_Text S_Loading S_Access E_SmallOffice E_Decimal E_OfficeFile E_ShortFile L_Access3 L_Access4 L_AccessX.
Open Scope list_scope.

(** After any calls of setters, in any order and with any arguments, each getter returns the value
    of the last call that gave its parameter one, or what it returned before; [gives] goes by the
    names.  No call of a setter is undefined. *)
Theorem C74_calls : forall T (N : Num T) (calls : list (call T)) (u : user_state T), nine_each u -> Forall known calls ->
  exists u', run_calls calls u = Some (Ok u') /\ nine_each u' /\
  (forall g, In g (map fst getters) ->
     exists before after, read g u = Some (Ok before) /\ read g u' = Some (Ok after) /\ value_after (gives g) before calls after) /\
  value_after (fun c x => c = CText "setScheduleFilePath" x) (us_schedule u) calls (us_schedule u') /\
  value_after (fun c x => c = CText "setWeatherFilePath" x) (bm_weatherFilePath (us_model u)) calls (bm_weatherFilePath (us_model u')) /\
  value_after (fun c x => c = CBool "setForcedAirCooling" x) (cl_forcedAir (pa_cooling (bm_params (us_model u)))) calls (cl_forcedAir (pa_cooling (bm_params (us_model u')))) /\
  value_after (fun c x => c = CBool "setForcedAirHeating" x) (ht_forcedAir (pa_heating (bm_params (us_model u)))) calls (ht_forcedAir (pa_heating (bm_params (us_model u')))).
Proof. exact @C74_calls_l. Qed.
Print Assumptions C74_calls.

(** The specification allows one value only. *)
Theorem C74_one_value : forall T (N : Num T) g before (calls : list (call T)) x y,
  value_after (gives g) before calls x -> value_after (gives g) before calls y -> x = y.
Proof. exact @C74_one_l. Qed.
Print Assumptions C74_one_value.

(** Every getter has a setter of its name, but those set by a word and the rate flag. *)
Theorem C74_paired : forall T (N : Num T) g, In g (map fst getters) ->
  (forall x : T, known (CNumber (setter_name g) x)) \/ In g (map (fun r => snd (fst r)) word_setters) \/ g = "vent_rate_flag"%string.
Proof. exact @C74_paired_l. Qed.
Print Assumptions C74_paired.

Definition office_state {T} {N : Num T} : user_state T :=
  mkUserState (mkBuildingModel smallOffice (tx "ORD.epw")) office_extra [].
Example C74_case : forall T (N : Num T),
  let calls := [CNumber "setWindowAreaE" (zn 5); CVector "setWindowArea" (map zn [1; 2; 3; 4; 5; 6; 7; 8; 9]%Z);
                CNumber "setRoofArea" (zn 50); CVector "setWindowArea" [zn 0]; CText "setBemType" (tx "Advanced"); CBool "setForcedAirCooling" false;
                CNumber "setWindowAreaSW" (zn 77)] in
  nine_each (@office_state T N) /\ Forall known calls /\
  exists u', run_calls calls office_state = Some (Ok u') /\ read "windowAreaE" u' = Some (Ok (zn 3)) /\
    read "windowAreaSW" u' = Some (Ok (zn 77)) /\ read "roofArea" u' = Some (Ok (zn 50)) /\ read "bemType" u' = Some (Ok (zn 3)) /\
    read "skylightArea" u' = Some (Ok (zn 9)).
Proof. exact @C74_case_l. Qed.

(** A building file that differs from one that loads in some documented entries loads exactly
    when the calls that say the same succeed on the loaded building, and to the same building. *)
Theorem C75_settings : forall T (N : Num T) (rd : reader T) file1 file2 m1 m2 (st : user_state T) u1 settings,
  propertiesOf file1 = Ok m1 -> propertiesOf file2 = Ok m2 ->
  (forall key c, In (key, c) settings -> same_setting rd m2 key c) ->
  (forall k, (forall key c, In (key, c) settings -> ~ same_word k (tx key)) -> getProperty m2 k = getProperty m1 k) ->
  loadBuilding rd file1 (us_model st) = Ok u1 ->
  forall u2, loadBuilding rd file2 (us_model st) = Ok u2 <-> all_calls (map snd settings) (with_model st u1) = Some (Ok (with_model st u2)).
Proof. exact @C75_settings_l. Qed.
Print Assumptions C75_settings.

(** With the list of the file itself the call says something else: setWindowArea starts at south. *)
Theorem C75_vector_order_refuted : exists file m (st : user_state R) u1 xs st',
  propertiesOf file = Ok m /\ loadBuilding decimal_reader file (us_model st) = Ok u1 /\
  getPropertyAsDoubleVector decimal_reader m (tx "windowArea") = Ok (Some xs) /\
  invoke (CVector "setWindowArea" xs) (with_model st u1) = Some (Ok st') /\
  read "windowAreaS" st' <> read "windowAreaS" (with_model st u1).
Proof. exact C75_vector_order_l. Qed.
Print Assumptions C75_vector_order_refuted.

Example C75_case : forall T (N : Num T), let st := mkUserState freshOffice office_extra [] in
  let file2 := Some (tx "floorArea = 20" ++ [newline] ++ tx "heatingFuelType = Electric" ++ [newline] ++
                     tx "windowArea = 1,2,3,4,5,6,7,8,9" ++ [newline] ++ officeText) in
  let settings := [("floorarea"%string, CNumber "setFloorArea" (lit 20 1)); ("heatingfueltype"%string, CText "setHeatingEnergyCarrier" (tx "Electric"));
                   ("windowArea"%string, CVector "setWindowArea" [lit 5 1; lit 4 1; lit 3 1; lit 2 1; lit 1 1; lit 8 1; lit 7 1; lit 6 1; lit 9 1])] in
  exists m1 m2 u1, propertiesOf (Some officeText) = Ok m1 /\ propertiesOf file2 = Ok m2 /\
  (forall key c, In (key, c) settings -> same_setting decimal_reader m2 key c) /\
  (forall k, (forall key c, In (key, c) settings -> ~ same_word k (tx key)) -> getProperty m2 k = getProperty m1 k) /\
  loadBuilding decimal_reader (Some officeText) (us_model st) = Ok u1 /\
  exists u2, all_calls (map snd settings) (with_model st u1) = Some (Ok (with_model st u2)).
Proof. exact @C75_case_l. Qed.

(** A parameter documented as required is required.  False as it stands: the shipped office file
    loads without its last block. *)
Theorem C76_required_refuted : forall T (N : Num T), exists file m u',
  propertiesOf file = Ok m /\ loadBuilding decimal_reader file freshOffice = Ok u' /\
  forall key, In key only_in_tests -> In key documented_required /\ getProperty m (tx key) = None.
Proof. exact @C76_refuted_l. Qed.
Print Assumptions C76_required_refuted.

(** It holds for all but those ten, ... *)
Theorem C76_required_partial : forall T (N : Num T) (rd : reader T) file m (u u' : building_model T) key,
  In key documented_required -> ~ In key only_in_tests ->
  propertiesOf file = Ok m -> loadBuilding rd file u = Ok u' -> exists s, getProperty m (tx key) = Some s.
Proof. exact @C76_required_l. Qed.
Print Assumptions C76_required_partial.

(** ... which have no effect at all: present, absent or malformed. *)
Theorem C76_unread : forall T (N : Num T) (rd : reader T) file1 file2 m1 m2 (u : building_model T),
  propertiesOf file1 = Ok m1 -> propertiesOf file2 = Ok m2 ->
  (forall k, (forall key, In key only_in_tests -> ~ same_word k (tx key)) -> getProperty m2 k = getProperty m1 k) ->
  loadBuilding rd file2 u = loadBuilding rd file1 u.
Proof. exact @C76_unread_l. Qed.
Print Assumptions C76_unread.

(** A number documented otherwise may be left out: it keeps its default and the others their values. *)
Theorem C76_optional : forall T (N : Num T) (rd : reader T) file1 file2 m1 m2 (u u1 : building_model T) g key,
  In (g, key) documented_numbers -> ~ In key documented_required ->
  propertiesOf file1 = Ok m1 -> propertiesOf file2 = Ok m2 -> loadBuilding rd file1 u = Ok u1 ->
  (forall k, ~ same_word k (tx key) -> getProperty m2 k = getProperty m1 k) -> getProperty m2 (tx key) = None ->
  exists u2 p, loadBuilding rd file2 u = Ok u2 /\ In (key, p) optional_numbers /\ p u2 = p u /\ unchanged_except key u1 u2.
Proof. exact @C76_optional_l. Qed.
Print Assumptions C76_optional.

Example C76_case : forall T (N : Num T),
  let with_it := Some (tx "hzone = 12" ++ [newline] ++ officeText) in
  exists m1 m2 u1, propertiesOf with_it = Ok m1 /\ propertiesOf (Some officeText) = Ok m2 /\
  In ("hzone"%string, "hzone"%string) documented_numbers /\ ~ In "hzone"%string documented_required /\
  loadBuilding decimal_reader with_it freshOffice = Ok u1 /\
  (forall k, ~ same_word k (tx "hzone") -> getProperty m2 k = getProperty m1 k) /\ getProperty m2 (tx "hzone") = None.
Proof. exact @C76_case_l. Qed.
