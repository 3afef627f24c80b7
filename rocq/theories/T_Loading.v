(** C48, C49, C55: loading a building. *)
From Coq Require Import Ascii String.
From Verif Require Import Base Num Text M_Text M_Properties M_Params M_UserModel S_Text S_Loading.
From Verif Require Import E_SmallOffice E_Decimal E_OfficeFile L_Loading L_Loading2 L_Loading3.
Open Scope list_scope.

(** Loading succeeds with a building exactly when the file is well formed and the building is the
    previous one with the parameters of the file: required ones present and converted, optional
    ones taken or left, words recognised, vectors stored by compass direction (see [loaded]). *)
Theorem C48_one_file : forall T (N : Num T) (rd : reader T) file (u u' : building_model T),
  loadBuilding rd file u = Ok u' <->
  exists m, propertiesOf file = Ok m /\ loaded rd (getProperty m) (getPropertyAsDoubleVector rd m) u u'.
Proof. exact @C48_one_file_l. Qed.
Print Assumptions C48_one_file.

Theorem C48_two_files : forall T (N : Num T) (rd : reader T) file defaults (u u' : building_model T),
  loadBuilding2 rd file defaults u = Ok u' <->
  exists m, propertiesOf2 file defaults = Ok m /\ loaded rd (getProperty m) (getPropertyAsDoubleVector rd m) u u'.
Proof. exact @C48_two_files_l. Qed.
Print Assumptions C48_two_files.

(** A missing or unreadable required parameter, an overflowing number or an unknown word is
    reported as an exception, whatever else the file contains. *)
Theorem C48_rejected : forall T (N : Num T) (rd : reader T) file m (u : building_model T), propertiesOf file = Ok m ->
  (exists k p, In (k, p) (@required_numbers T) /\ (getProperty m (tx k) = None \/ exists s, getProperty m (tx k) = Some s /\ rd_stod rd s = NoConversion)) \/
  (exists k p, In (k, p) (@required_numbers T ++ optional_numbers) /\ exists s, getProperty m (tx k) = Some s /\ rd_stod rd s = RangeError) \/
  (exists k p words, In (k, p, words) (@required_words T) /\
     (getProperty m (tx k) = None \/ exists s, getProperty m (tx k) = Some s /\ forall w code, In (w, code) words -> ~ same_word s (tx w))) \/
  getProperty m (tx "weatherfilepath") = None ->
  exists e, loadBuilding rd file u = Throw e.
Proof. exact @C48_rejected_l. Qed.
Print Assumptions C48_rejected.

(** The shipped building file loads, to the building used in the other examples. *)
Example C48_office : forall T (N : Num T),
  loadBuilding decimal_reader (Some officeText) freshOffice = Ok (mkBuildingModel smallOffice (tx "ORD.epw")).
Proof. intros. vm_compute. reflexivity. Qed.
(** The first line for a key wins: an unknown fuel in front is rejected. *)
Example C48_office_rejected : forall T (N : Num T),
  loadBuilding decimal_reader (Some (tx "heatingFuelType = coal" ++ [newline] ++ officeText)) freshOffice = Throw InvalidArgument.
Proof. intros. vm_compute. reflexivity. Qed.
(** An optional parameter that is no number keeps its default. *)
Example C48_office_optional : forall T (N : Num T),
  loadBuilding decimal_reader (Some (tx "hzone = high" ++ [newline] ++ officeText)) freshOffice =
  loadBuilding decimal_reader (Some officeText) freshOffice.
Proof. intros. vm_compute. reflexivity. Qed.

(** The number written at the file position of a direction is the one the accessor for that
    direction returns, for each of the nine vectors. *)
Theorem C49_directions : forall T (N : Num T) (rd : reader T) file m (u u' : building_model T) k p fs d f,
  propertiesOf file = Ok m -> loadBuilding rd file u = Ok u' ->
  In (k, p) required_vectors -> Forall plain fs ->
  getProperty m (tx k) = Some (joined ","%char fs) -> joined ","%char fs <> [] ->
  nth_error fs (file_position d) = Some f ->
  exists x, rd_stod rd f = Value x /\ nth_error (p u') (accessor_index d) = Some x.
Proof. exact @C49_directions_l. Qed.
Print Assumptions C49_directions.

(** Reordering twice gives the vector back. *)
Theorem C49_involution : forall A (xs : list A), List.length xs = 9%nat ->
  exists ys, northToSouth xs = Ok ys /\ northToSouth ys = Ok xs.
Proof. exact C49_involution_l. Qed.
Print Assumptions C49_involution.

(** A vector that has not nine elements is never accepted ... *)
Theorem C49_nine : forall T (N : Num T) (rd : reader T) file m (u u' : building_model T) k (p : building_model T -> list T) xs,
  propertiesOf file = Ok m -> In (k, p) required_vectors -> getPropertyAsDoubleVector rd m (tx k) = Ok (Some xs) ->
  List.length xs <> 9%nat -> loadBuilding rd file u <> Ok u'.
Proof. exact @C49_nine_l. Qed.
Print Assumptions C49_nine.

(** ... and loading is defined when every vector has at least eight elements.  Full property:
    a vector of any wrong length is rejected by an exception; false for shorter ones, next. *)
Theorem C49_defined_partial : forall T (N : Num T) (rd : reader T) file (u : building_model T),
  (forall m k (p : building_model T -> list T) xs, propertiesOf file = Ok m -> In (k, p) required_vectors ->
     getPropertyAsDoubleVector rd m (tx k) = Ok (Some xs) -> (8 <= List.length xs)%nat) ->
  loadBuilding rd file u <> UB.
Proof. exact @C49_defined_l. Qed.
Print Assumptions C49_defined_partial.

Definition short_file : text := tx "wallU = 0.3,0.3,0.3,0.3" ++ [newline] ++ officeText.
Theorem C49_short_vector_refuted : forall T (N : Num T), exists file, loadBuilding decimal_reader file freshOffice = UB.
Proof. intros T N. exists (Some short_file). vm_compute. reflexivity. Qed.
Print Assumptions C49_short_vector_refuted.

Example C49_case : forall T (N : Num T),
  let u := mkBuildingModel smallOffice (tx "ORD.epw") in
  nth_error (st_windowArea (pa_structure (bm_params u))) (accessor_index North) = Some (lit 1674 100) /\
  nth_error (st_windowArea (pa_structure (bm_params u))) (accessor_index South) = Some (lit 2065 100).
Proof. intros. split; reflexivity. Qed.

(** The text setters: exactly the documented words up to case, their codes, and an error otherwise. *)
Theorem C55_words : forall T (N : Num T) (s : text) (u : building_model T),
  let accepts (set : text -> building_model T -> outcome (building_model T)) (field : building_model T -> T) (words : list (string * Z)) :=
    (forall w code, In (w, code) words -> same_word s (tx w) -> exists u', set s u = Ok u' /\ field u' = zn code) /\
    ((forall w code, In (w, code) words -> ~ same_word s (tx w)) -> set s u = Throw InvalidArgument) in
  accepts set_HeatingEnergyCarrier (fun u => ht_energyType (pa_heating (bm_params u))) [("electric", 1); ("gas", 2)]%Z%string /\
  accepts set_DhwEnergyCarrier (fun u => ht_hotWaterEnergyType (pa_heating (bm_params u))) [("electric", 1); ("gas", 2)]%Z%string /\
  accepts set_VentilationType (fun u => ve_type (pa_ventilation (bm_params u))) [("mechanical", 1); ("combined", 2); ("natural", 3)]%Z%string /\
  accepts set_BemType (fun u => bu_bem (pa_building (bm_params u))) [("none", 1); ("simple", 2); ("advanced", 3)]%Z%string.
Proof. exact @C55_words_l. Qed.
Print Assumptions C55_words.

(** A setter that succeeds changes its own parameter only. *)
Theorem C55_only : forall T (N : Num T) (s : text) (u u' : building_model T),
  (set_HeatingEnergyCarrier s u = Ok u' -> unchanged_except "heatingfueltype" u u') /\
  (set_DhwEnergyCarrier s u = Ok u' -> unchanged_except "dhwfueltype" u u') /\
  (set_VentilationType s u = Ok u' -> unchanged_except "ventilationtype" u u') /\
  (set_BemType s u = Ok u' -> unchanged_except "bemtype" u u').
Proof. exact @C55_only_l. Qed.
Print Assumptions C55_only.

Example C55_case : forall T (N : Num T) (u : building_model T),
  exists u', set_BemType (tx "AdVanced") u = Ok u' /\ bu_bem (pa_building (bm_params u')) = zn 3 /\
  set_BemType (tx "advanced ") u = Throw InvalidArgument.
Proof. intros. eexists. repeat split. Qed.
