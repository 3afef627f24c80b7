(** C36, C37, C38: reading weather. *)
From Coq Require Import Ascii String ZArith Lia Reals.
From Verif Require Import Base Num Xr Text M_Text M_Properties M_Epw S_Text S_Epw E_Decimal E_EpwFile L_Epw L_Epw2 L_Epw3.
Open Scope nat_scope.
Open Scope list_scope.

(** Every weather object has seven columns: the constructor makes them and every load keeps them,
    so the first hypothesis of the theorems below holds after every history. *)
Theorem C36_columns : forall T (N : Num T) (rd : reader T),
  List.length (ep_data (newEpw : epw T)) = 7 /\
  (forall file (e e' : epw T), List.length (ep_data e) = 7 -> loadFile rd file e = Ok e' -> List.length (ep_data e') = 7) /\
  (forall size values (e e' : epw T), List.length (ep_data e) = 7 -> loadBlock size values e = Ok e' -> List.length (ep_data e') = 7).
Proof. intros. exact (conj eq_refl (conj (loadFile_columns rd) loadBlock_columns)). Qed.
Print Assumptions C36_columns.

(** Loading a file with a readable header succeeds, fills 8760 rows, takes the site from the
    header fields 7, 8 and 9, and puts the field of each column into the row of its line. *)
Theorem C36_file : forall T (N : Num T) (rd : reader T) content ls (e : epw T) h hf lat lon zone loc sta tz,
  List.length (ep_data e) = 7 -> is_lines content ls -> nth_error ls 0 = Some h -> has_fields h hf ->
  nth_error hf 1 = Some loc -> nth_error hf 5 = Some sta ->
  nth_error hf 6 = Some lat -> nth_error hf 7 = Some lon -> nth_error hf 8 = Some zone ->
  ntrunc (rd_atof rd zone) = Some tz ->
  exists e', loadFile rd (Some content) e = Ok e' /\ year_table (ep_data e') /\
    ep_site e' = Some (rd_atof rd lat, rd_atof rd lon, tz) /\ ep_location e' = loc /\ ep_station e' = sta /\
    forall r line fs col pos f, (Z.of_nat r < 8760)%Z -> nth_error ls (8 + r) = Some line -> has_fields line fs ->
      In (col, pos) epw_format -> nth_error fs (pos - 1) = Some f ->
      cell (ep_data e') col r = Some (rd_atof rd f).
Proof. exact @C36_file_l. Qed.
Print Assumptions C36_file.

(** The sample file meets the hypotheses: its header has the fields, its time zone is a number. *)
Example C36_sample : exists hf,
  is_lines epwSample (epwHeader ++ [epwRecord1; epwRecord2]) /\ has_fields (hd [] epwHeader) hf /\
  nth_error hf 1 = Some (tx "Chicago Ohare Intl Ap") /\ nth_error hf 5 = Some (tx "725300") /\
  nth_error hf 6 = Some (tx "41.98") /\ nth_error hf 7 = Some (tx "-87.92") /\ nth_error hf 8 = Some (tx "-6.0") /\
  ntrunc (rd_atof (@decimal_reader xr _) (tx "-6.0")) = Some (-6)%Z.
Proof.
  exists (split_on "," [] (hd [] epwHeader)).
  exact (conj sample_lines (conj (split_fields _) (conj eq_refl (conj eq_refl (conj eq_refl (conj eq_refl (conj eq_refl zone_six))))))).
Qed.
(** What is read from its second record. *)
Example C36_sample_row : exists e', loadFile decimal_reader (Some epwSample) (newEpw : epw xr) = Ok e' /\
  map (fun c => cell (ep_data e') c 1) [DBT; DPT; RH; EGH; EB; ED; WSPD] =
    map (fun x => Some (Fin x)) [- Rlit 117 10; - Rlit 156 10; Rlit 74 1; Rlit 5 1; Rlit 6 1; Rlit 7 1; Rlit 21 10]%R /\
  ep_site e' = Some (Fin (Rlit 4198 100), Fin (- Rlit 8792 100), (-6)%Z).
Proof. exact sample_row. Qed.

(** A complete file determines the whole result: neither the previous contents of the object nor
    what follows the 8760th record matters. *)
Theorem C36_determined : forall T (N : Num T) (rd : reader T) content1 content2 ls more1 more2 (e1 e2 : epw T),
  List.length (ep_data e1) = 7 -> List.length (ep_data e2) = 7 ->
  is_lines content1 (ls ++ more1) -> is_lines content2 (ls ++ more2) -> (8768 <= Z.of_nat (List.length ls))%Z ->
  loadFile rd (Some content1) e1 = loadFile rd (Some content2) e2.
Proof. exact @C36_determined_l. Qed.
Print Assumptions C36_determined.

(** A file that cannot be opened leaves the values and the site as they were. *)
Theorem C36_no_file : forall T (N : Num T) (rd : reader T) (e e' : epw T), loadFile rd None e = Ok e' ->
  ep_site e' = ep_site e /\ forall c r x, cell (ep_data e) c r = Some x -> (Z.of_nat r < 8760)%Z -> cell (ep_data e') c r = Some x.
Proof. exact @C36_no_file_l. Qed.
Print Assumptions C36_no_file.

(** What a data line with missing fields gives: the missing columns repeat the last field. *)
Theorem C37_missing_field : forall T (N : Num T) (rd : reader T) content ls (e e' : epw T) r line fs col pos,
  List.length (ep_data e) = 7 -> is_lines content ls -> loadFile rd (Some content) e = Ok e' ->
  (Z.of_nat r < 8760)%Z -> nth_error ls (8 + r) = Some line -> has_fields line fs -> In (col, pos) epw_format ->
  List.length fs < pos -> cell (ep_data e') col r = Some (rd_atof rd (last fs [])).
Proof. exact @C37_missing_field_l. Qed.
Print Assumptions C37_missing_field.

(** Against C37: a record cut off after the dew point loads without complaint, with the dew point
    as wind speed. *)
Theorem C37_missing_field_refuted : exists content ls line fs e',
  is_lines content ls /\ nth_error ls 8 = Some line /\ has_fields line fs /\ List.length fs = 8 /\
  loadFile decimal_reader (Some content) (newEpw : epw xr) = Ok e' /\
  cell (ep_data e') WSPD 0 = Some (Fin 16.5).
Proof. exact C37_missing_field_refuted_l. Qed.
Print Assumptions C37_missing_field_refuted.

(** Rows after the end of a short file keep the values of whatever was loaded before. *)
Theorem C37_short_file : forall T (N : Num T) (rd : reader T) content ls (e e' : epw T) r col x,
  List.length (ep_data e) = 7 -> is_lines content ls -> loadFile rd (Some content) e = Ok e' ->
  (Z.of_nat r < 8760)%Z -> List.length ls < 8 + r -> cell (ep_data e) col r = Some x -> col < 7 ->
  cell (ep_data e') col r = Some x.
Proof. exact @C37_short_file_l. Qed.
Print Assumptions C37_short_file.

(** Against C37: after loading the sample and then a file without records, the wind speed of the
    sample is still there; a fresh object would hold 0. *)
Theorem C37_reload_refuted : exists content1 content2 ls2 e1 e2,
  is_lines content2 ls2 /\ List.length ls2 < 8 + 1 /\
  loadFile decimal_reader (Some content1) (newEpw : epw xr) = Ok e1 /\ loadFile decimal_reader (Some content2) e1 = Ok e2 /\
  cell (ep_data e2) WSPD 1 = Some (Fin 2.1) /\
  exists e', loadFile decimal_reader (Some content2) (newEpw : epw xr) = Ok e' /\ cell (ep_data e') WSPD 1 = Some (Fin 0).
Proof. exact C37_reload_refuted_l. Qed.
Print Assumptions C37_reload_refuted.

(** The part of C37 that holds: a file with all 8760 records leaves nothing of the previous one. *)
Theorem C37_complete_partial : forall T (N : Num T) (rd : reader T) content ls (e : epw T),
  List.length (ep_data e) = 7 -> is_lines content ls -> (8768 <= Z.of_nat (List.length ls))%Z ->
  loadFile rd (Some content) e = loadFile rd (Some content) newEpw.
Proof. exact @C37_complete_l. Qed.
Print Assumptions C37_complete_partial.

(** A block of at most 8760 hours, held in an array long enough: value c * size + i + 3 is hour i
    of column c; later hours keep their value (0 in a fresh object). *)
Theorem C38_block_partial : forall T (N : Num T) size (values : list T) e lat lon zone tz,
  List.length (ep_data e) = 7 -> (Z.of_nat size <= 8760)%Z -> 3 + 7 * size <= List.length values ->
  nth_error values 0 = Some lat -> nth_error values 1 = Some lon -> nth_error values 2 = Some zone -> ntrunc zone = Some tz ->
  exists e', loadBlock (Z.of_nat size) values e = Ok e' /\ year_table (ep_data e') /\ ep_site e' = Some (lat, lon, tz) /\
    (forall c i, c < 7 -> i < size -> cell (ep_data e') c i = nth_error values (c * size + i + 3)) /\
    (forall c i, c < 7 -> size <= i -> (Z.of_nat i < 8760)%Z ->
       cell (ep_data e') c i = Some (match cell (ep_data e) c i with Some x => x | None => zn 0 end)).
Proof. exact @C38_block_l. Qed.
Print Assumptions C38_block_partial.
Example C38_two_hours : forall T (N : Num T) (a b z : T) tz, ntrunc z = Some tz ->
  match loadBlock 2 (a :: b :: z :: map zn [1; 2; 3; 4; 5; 6; 7; 8; 9; 10; 11; 12; 13; 14]%Z) newEpw with
  | Ok e' => (cell (ep_data e') DPT 1, cell (ep_data e') WSPD 0, cell (ep_data e') WSPD 2) = (Some (zn 4), Some (zn 13), Some (zn 0))
  | _ => False
  end.
Proof. intros T N a b z tz H. vm_compute in H |- *. rewrite H. reflexivity. Qed.

(** Every larger block, and every array too short for its size, is undefined behaviour. *)
Theorem C38_unsafe : forall T (N : Num T) size (values : list T) (e : epw T),
  List.length (ep_data e) = 7 -> (8760 < Z.of_nat size)%Z \/ List.length values < 3 + 7 * size ->
  loadBlock (Z.of_nat size) values e = UB.
Proof. exact @loadBlock_ub. Qed.
Print Assumptions C38_unsafe.

(** Against C38: a block of 8761 hours in an array that holds all of them is not memory-safe. *)
Theorem C38_large_refuted : forall T (N : Num T), exists size (values : list T),
  Z.of_nat size = 8761%Z /\ List.length values = 3 + 7 * size /\ loadBlock (Z.of_nat size) values newEpw = UB.
Proof. exact @C38_large_l. Qed.
Print Assumptions C38_large_refuted.
