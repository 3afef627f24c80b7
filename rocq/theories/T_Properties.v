(** C44-C47, C57: the property map and the property file. *)
From Coq Require Import Ascii String Sorted.
From Verif Require Import Base Text M_Text M_Properties S_Text S_Properties L_Text L_Properties.
Open Scope char_scope.
Open Scope list_scope.

(** One update: keys equal up to ASCII case see the new value, all others are unchanged. *)
Theorem C44_put_get : forall m k v k',
  (same_word k k' -> getProperty (putProperty m k v) k' = Some v) /\
  (~ same_word k k' -> getProperty (putProperty m k v) k' = getProperty m k').
Proof. exact get_put. Qed.
Print Assumptions C44_put_get.

(** Any history: an object made by one of the constructors, then any sequence of puts.  A get
    returns the last value put under that key (up to case), or else what the constructor gave;
    contains agrees with get; the key iterator enumerates every stored key once; a put grows
    the object by one exactly when the key was absent. *)
Theorem C44_history : forall m ops,
  m = empty_props \/ (exists f, propertiesOf f = Ok m) \/ (exists b d, propertiesOf2 b d = Ok m) ->
  let m' := fold_left (fun m kv => putProperty m (fst kv) (snd kv)) ops m in
  (forall k v, getProperty m' k = Some v <->
     last_put ops k v \/ (getProperty m k = Some v /\ forall k' v', In (k', v') ops -> ~ same_word k k')) /\
  (forall k, contains m' k = true <-> exists v, getProperty m' k = Some v) /\
  NoDup (keys m') /\ List.length (keys m') = size m' /\
  (forall k, contains m' k = true <-> exists k', In k' (keys m') /\ same_word k k') /\
  (forall k v, size (putProperty m' k v) = (size m' + if contains m' k then 0 else 1)%nat).
Proof. exact C44_object_l. Qed.
Print Assumptions C44_history.

Example C44_case :
  let m := fold_left (fun m kv => putProperty m (fst kv) (snd kv))
             [(tx "WallU", tx "1"); (tx "floorArea", tx "2"); (tx "WALLu", tx "3")] empty_props in
  getProperty m "wallu"%string = Some (tx "3") /\ getProperty m "FloorArea"%string = Some (tx "2") /\ size m = 2 /\
  same_word "WallU"%string "WALLu"%string.
Proof. cbn. repeat split; try reflexivity. apply same_word_lower. reflexivity. Qed.

(** Every file content has exactly one list of lines. *)
Theorem C45_lines : forall content, exists! ls, is_lines content ls.
Proof. exact lines_unique. Qed.
Print Assumptions C45_lines.

(** Reading one file: the value of a key is that of the first line giving it. *)
Theorem C45_one_file : forall content ls m, is_lines content ls -> propertiesOf (Some content) = Ok m ->
  forall k v, getProperty m k = Some v <-> first_value ls k v.
Proof. exact C45_file_l. Qed.
Print Assumptions C45_one_file.

(** Reading building and defaults: the lines of the building file come first. *)
Theorem C45_two_files : forall building defaults lb ld m,
  is_lines building lb -> is_lines defaults ld -> propertiesOf2 (Some building) (Some defaults) = Ok m ->
  forall k v, getProperty m k = Some v <-> first_value (lb ++ ld) k v.
Proof. exact C45_two_l. Qed.
Print Assumptions C45_two_files.

(** Inserting or deleting a blank line or a comment changes neither the map nor the verdict. *)
Theorem C45_noise : forall c c' before n after, (blank_line n \/ comment_line n) ->
  is_lines c (before ++ n :: after) -> is_lines c' (before ++ after) ->
  propertiesOf (Some c) = propertiesOf (Some c').
Proof. exact C45_noise_l. Qed.
Print Assumptions C45_noise.

Definition sample_file : text :=
  tx "# a comment" ++ [newline] ++
  tx "  wallU = 1.5  " ++ [carriage; newline] ++ [newline] ++
  tx "WALLU=2" ++ [newline] ++ [tab] ++ tx "path = a = b".
Example C45_case : exists m, propertiesOf (Some sample_file) = Ok m /\
  getProperty m "wallu"%string = Some (tx "1.5") /\ getProperty m "PATH"%string = Some (tx "a = b") /\ size m = 2.
Proof. eexists. split; [vm_compute; reflexivity|]. repeat split; vm_compute; reflexivity. Qed.
Example C45_case_two : exists m,
  propertiesOf2 (Some (tx "wallU=9")) (Some sample_file) = Ok m /\ getProperty m "wallU"%string = Some (tx "9") /\ size m = 2.
Proof. eexists. split; [vm_compute; reflexivity|]. split; vm_compute; reflexivity. Qed.

(** One bad line anywhere rejects the file; a file without bad lines is accepted; a file that
    cannot be opened is rejected. *)
Theorem C46_one_file : forall content ls, is_lines content ls ->
  (Exists bad_line ls -> propertiesOf (Some content) = Throw DomainErrorPtr) /\
  (Forall (fun l => ~ bad_line l) ls -> exists m, propertiesOf (Some content) = Ok m).
Proof. exact C46_one_l. Qed.
Print Assumptions C46_one_file.

Theorem C46_two_files : forall building defaults lb ld, is_lines building lb -> is_lines defaults ld ->
  (Exists bad_line (lb ++ ld) -> propertiesOf2 (Some building) (Some defaults) = Throw DomainErrorPtr) /\
  (Forall (fun l => ~ bad_line l) (lb ++ ld) -> exists m, propertiesOf2 (Some building) (Some defaults) = Ok m).
Proof. exact C46_two_l. Qed.
Print Assumptions C46_two_files.

Theorem C46_unreadable : propertiesOf None = Throw DomainErrorPtr /\
  forall b, exists e, propertiesOf2 b None = Throw e /\ propertiesOf2 None b = Throw DomainErrorPtr.
Proof. exact C46_none_l. Qed.
Print Assumptions C46_unreadable.

Example C46_case : bad_line "no separator here"%string /\ bad_line " = 3"%string /\ bad_line "key =  "%string /\
  ~ bad_line "key = 3"%string.
Proof. exact C46_case_l. Qed.

(** Any map of clean, pairwise different keys to clean values, written one per line with any
    blanks, CRs, comments and blank lines, with or without a final newline, is read back. *)
Theorem C47_round_trip : forall ws tail content,
  Forall written_ok ws ->
  (forall w w1 w2, ws = w1 ++ w :: w2 -> Forall (fun w' => ~ same_word (wr_key w) (wr_key w')) w2) ->
  Forall (fun l => no_newline l /\ (blank_line l \/ comment_line l)) tail ->
  is_lines content (written_lines ws ++ tail) ->
  exists m, propertiesOf (Some content) = Ok m /\ size m = List.length ws /\
    forall k v, getProperty m k = Some v <-> exists w, In w ws /\ same_word k (wr_key w) /\ wr_value w = v.
Proof. exact C47_l. Qed.
Print Assumptions C47_round_trip.

Example C47_case :
  let w1 := mkWritten [tx "# walls"] [blank] [tab] [] [carriage] "wallU"%string "1.5"%string in
  let w2 := mkWritten [[]] [] [] [blank] [] "floorArea"%string "500 m2"%string in
  Forall written_ok [w1; w2] /\ ~ same_word (wr_key w1) (wr_key w2) /\
  is_lines (ended (written_lines [w1; w2])) (written_lines [w1; w2]).
Proof. exact C47_case_l. Qed.

(** A property written as comma separated numbers is returned as exactly those numbers, in
    order, for every number syntax; it is refused as soon as one of them is not a number. *)
Theorem C57_number_list : forall T (rd : reader T) m k fs xs,
  Forall plain fs -> joined "," fs <> [] -> getProperty m k = Some (joined "," fs) ->
  (getPropertyAsDoubleVector rd m k = Ok (Some xs) <-> Forall2 (fun f x => rd_stod rd f = Value x) fs xs).
Proof. exact C57_vector_l. Qed.
Print Assumptions C57_number_list.

(** The two overloads give the same answer whenever the ublas one gives one. *)
Theorem C57_overloads_agree : forall T (rd : reader T) m k vec r,
  getPropertyAsDoubleVector rd m k = Ok r ->
  match r with
  | Some xs => getPropertyAsStdVector rd m k vec = Ok (true, xs)
  | None => exists v, getPropertyAsStdVector rd m k vec = Ok (false, v)
  end.
Proof. exact overloads_agree. Qed.
Print Assumptions C57_overloads_agree.

Example C57_case : let rd := mkReader (fun t : text => Value (List.length t)) (fun _ => NoConversion) (fun _ => 0) in
  let m := putProperty empty_props "wallU"%string (joined "," [tx "1"; tx " 22"; tx "333"]) in
  Forall plain [tx "1"; tx " 22"; tx "333"] /\ getPropertyAsDoubleVector rd m "WALLU"%string = Ok (Some [1; 3; 3]).
Proof. split; [repeat constructor; discriminate|reflexivity]. Qed.
