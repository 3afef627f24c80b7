(** Properties.cpp: the property map and the property file reader. *)
From Coq Require Import Ascii String.
From Verif Require Import Base Text M_Text.
Open Scope char_scope.
Open Scope list_scope.

(** The member [std::map<std::string, std::string> map] (Properties.hpp 49): entries in
    ascending key order. *)
Definition props := list (text * text).

(** std::map::find. *)
Fixpoint map_find (k : text) (m : props) : option text :=
  match m with
  | [] => None
  | (k', v) :: t => if text_eqb k k' then Some v else map_find k t
  end.

(** [map[k] = v]: overwrite or insert at the place given by operator<. *)
Fixpoint map_assign (k v : text) (m : props) : props :=
  match m with
  | [] => [(k, v)]
  | (k', v') :: t =>
      if text_ltb k k' then (k, v) :: m
      else if text_eqb k k' then (k, v) :: t
      else (k', v') :: map_assign k v t
  end.

(** [map.insert(std::make_pair(k, v))]: an existing entry stays as it is. *)
Fixpoint map_insert (k v : text) (m : props) : props :=
  match m with
  | [] => [(k, v)]
  | (k', v') :: t =>
      if text_ltb k k' then (k, v) :: m
      else if text_eqb k k' then m
      else (k', v') :: map_insert k v t
  end.

(** Properties.cpp 21-33. *)
Definition str_trim (s : text) : text :=
  match find_last_not_of [blank; tab; carriage] s with
  | Some pos =>
      let s1 := firstn (S pos) s in
      match find_first_not_of [blank; tab] s1 with
      | Some pos2 => skipn pos2 s1
      | None => s1
      end
  | None => []
  end.

(** Properties.cpp 35-37. *)
Definition empty_props : props := [].

(** Properties.cpp 150-155. *)
Definition putProperty (m : props) (key value : text) : props := map_assign (lower key) value m.

(** Properties.cpp 157-162; [to_string] is std::to_string(double). *)
Definition putPropertyDouble {T} (to_string : T -> text) (m : props) (key : text) (value : T) : props :=
  map_assign (lower key) (to_string value) m.

(** Properties.cpp 172-181. *)
Definition getProperty (m : props) (key : text) : option text := map_find (lower key) m.

(** Properties.cpp 164-170. *)
Definition contains (m : props) (key : text) : bool :=
  match map_find (lower key) m with Some _ => true | None => false end.

(** Properties.hpp 173-176. *)
Definition size (m : props) : nat := List.length m.

(** Properties.hpp 155-168 and Properties.cpp 16-19: keys_begin() .. keys_end(). *)
Definition keys (m : props) : list text := map fst m.

(** Body of the loop of Properties.cpp 189-213 for one line. *)
Definition readLine (m : props) (line0 : text) : outcome props :=
  let line := str_trim line0 in
  match line with
  | [] => Ok m
  | c :: _ =>
      if Ascii.eqb c "#" then Ok m
      else
        match find_first_of "=" line with
        | None => Throw DomainErrorPtr
        | Some pos =>
            let key := str_trim (substr line 0 pos) in
            match key with
            | [] => Throw DomainErrorPtr
            | _ =>
                let value := str_trim (substr line (pos + 1) (List.length line)) in
                match value with
                | [] => Throw DomainErrorPtr
                | _ => Ok (map_insert (lower key) value m)
                end
            end
        end
  end.

(** Properties.cpp 183-218.  The file is its content, [None] when it cannot be opened. *)
Definition readFile (file : option text) (m : props) : outcome props :=
  match file with
  | None => Throw DomainErrorPtr
  | Some content => ofold readLine (getlines [] content) m
  end.

(** Properties.cpp 39-41. *)
Definition propertiesOf (file : option text) : outcome props := readFile file empty_props.

(** Properties.cpp 43-49. *)
Definition propertiesOf2 (building defaults : option text) : outcome props :=
  do m <- readFile building empty_props; readFile defaults m.

(** What std::stod / std::stoi do with a text. *)
Inductive parsed (A : Type) := Value (a : A) | NoConversion | RangeError.
Arguments Value {A} a.
Arguments NoConversion {A}.
Arguments RangeError {A}.

(** The number syntax: std::stod, std::stoi and atof (used by EpwData and UserModel).
    The functions below take it as an argument, so theorems hold for every syntax. *)
Record reader (T : Type) := mkReader {
  rd_stod : text -> parsed T;
  rd_stoi : text -> parsed Z;
  rd_atof : text -> T }.
Arguments mkReader {T}.
Arguments rd_stod {T}.
Arguments rd_stoi {T}.
Arguments rd_atof {T}.

(** [try { return convert(val); } catch (std::invalid_argument&) { return none; }]:
    std::out_of_range is not caught. *)
Definition try_parse {A} (p : parsed A) : outcome (option A) :=
  match p with
  | Value a => Ok (Some a)
  | NoConversion => Ok None
  | RangeError => Throw OutOfRange
  end.

(** Properties.cpp 104-117. *)
Definition getPropertyAsDouble {T} (rd : reader T) (m : props) (key : text) : outcome (option T) :=
  match getProperty m key with
  | Some val => try_parse (rd_stod rd val)
  | None => Ok None
  end.

(** Properties.cpp 119-132. *)
Definition getPropertyAsInt {T} (rd : reader T) (m : props) (key : text) : outcome (option Z) :=
  match getProperty m key with
  | Some val => try_parse (rd_stoi rd val)
  | None => Ok None
  end.

(** Properties.cpp 134-148. *)
Definition getPropertyAsBool (m : props) (key : text) : option bool :=
  match getProperty m key with
  | Some val =>
      if text_eqb val "true"%string then Some true
      else if text_eqb val "false"%string then Some false
      else None
  | None => None
  end.

(** boost::tokenizer with the default boost::escaped_list_separator (separator comma, double quote,
    escape backslash), as used in Properties.cpp 55 and 77: [tok] is the field being built,
    [inq] whether we are inside quotes, [esc] whether the previous byte was an escape,
    [open] whether a field must still be produced when the input ends (text remains after
    the last separator, or the separator was the last byte). *)
Fixpoint csv_scan (s tok : text) (inq esc open : bool) : outcome (list text) :=
  match s with
  | [] =>
      if esc then Throw RuntimeError
      else Ok (if open then [tok] else [])
  | c :: t =>
      if esc then
        if Ascii.eqb c "n" then csv_scan t (tok ++ [newline]) inq false true
        else if (Ascii.eqb c """" || Ascii.eqb c "," || Ascii.eqb c "\")%bool
             then csv_scan t (tok ++ [c]) inq false true
        else Throw RuntimeError
      else if Ascii.eqb c "\" then csv_scan t tok inq true true
      else if Ascii.eqb c "," then
        if inq then csv_scan t (tok ++ [c]) inq false true
        else do r <- csv_scan t [] false false true; Ok (tok :: r)
      else if Ascii.eqb c """" then csv_scan t tok (negb inq) false true
      else csv_scan t (tok ++ [c]) inq false true
  end.
Definition csv_tokens (s : text) : outcome (list text) := csv_scan s [] false false false.

(** stod over the tokens; [None] = an item could not be converted (invalid_argument). *)
Fixpoint stod_all {T} (rd : reader T) (l : list text) : outcome (option (list T)) :=
  match l with
  | [] => Ok (Some [])
  | s :: t =>
      match rd_stod rd s with
      | Value x => do r <- stod_all rd t; Ok (option_map (cons x) r)
      | NoConversion => Ok None
      | RangeError => Throw OutOfRange
      end
  end.

(** Properties.cpp 73-102 (the ublas overload, the one UserModel uses): [None] = returns
    false.  All tokens are counted before the first one is converted. *)
Definition getPropertyAsDoubleVector {T} (rd : reader T) (m : props) (key : text)
  : outcome (option (list T)) :=
  match getProperty m key with
  | Some val => do toks <- csv_tokens val; stod_all rd toks
  | None => Ok None
  end.

(** Properties.cpp 51-71 (the std::vector overload): tokens are converted while the text is
    scanned, so a bad number before a bad escape returns false instead of throwing.  On
    [false] the vector holds the values converted so far: result = (returned bool, vec). *)
Fixpoint stod_scan {T} (rd : reader T) (s tok : text) (inq esc open : bool) (vec : list T)
  : outcome (bool * list T) :=
  let emit (k : list T -> outcome (bool * list T)) :=
    match rd_stod rd tok with
    | Value x => k (vec ++ [x])
    | NoConversion => Ok (false, vec)
    | RangeError => Throw OutOfRange
    end in
  match s with
  | [] =>
      if esc then Throw RuntimeError
      else if open then emit (fun v => Ok (true, v)) else Ok (true, vec)
  | c :: t =>
      if esc then
        if Ascii.eqb c "n" then stod_scan rd t (tok ++ [newline]) inq false true vec
        else if (Ascii.eqb c """" || Ascii.eqb c "," || Ascii.eqb c "\")%bool
             then stod_scan rd t (tok ++ [c]) inq false true vec
        else Throw RuntimeError
      else if Ascii.eqb c "\" then stod_scan rd t tok inq true true vec
      else if Ascii.eqb c "," then
        if inq then stod_scan rd t (tok ++ [c]) inq false true vec
        else emit (fun v => stod_scan rd t [] false false true v)
      else if Ascii.eqb c """" then stod_scan rd t tok (negb inq) false true vec
      else stod_scan rd t (tok ++ [c]) inq false true vec
  end.
Definition getPropertyAsStdVector {T} (rd : reader T) (m : props) (key : text) (vec : list T)
  : outcome (bool * list T) :=
  match getProperty m key with
  | Some val => stod_scan rd val [] false false false []
  | None => Ok (false, vec)
  end.
