(** What the printed reports of the command line program say. *)
From Coq Require Import Ascii String ZArith DecimalString.
From Verif Require Import Base Num Text S_Text S_Epw.
Open Scope nat_scope.
Open Scope char_scope.
Open Scope list_scope.

(** The text is the decimal numeral of [n]. *)
Definition numeral (n : nat) (f : text) : Prop :=
  exists d, NilZero.uint_of_string (string_of_list_ascii f) = Some d /\ Nat.of_uint d = n.

(** How numbers are written: without comma, bar or line break. *)
Definition writes_cells {T} (write : T -> text) : Prop :=
  forall x, write x <> [] /\ ~ In "," (write x) /\ ~ In "|" (write x) /\ ~ In newline (write x).

(** The thirteen end uses, in the order of the result tables. *)
Definition uses : list text :=
  map tx ["ElecHeat"; "ElecCool"; "ElecIntLights"; "ElecExtLights"; "ElecFans"; "ElecPump"; "ElecEquipInt"; "ElecEquipExt";
          "ElectDHW"; "GasHeat"; "GasCool"; "GasEquip"; "GasDHW"]%string.

(** A text made of these lines, each ended by a line break. *)
Definition full_lines (out : text) (ls : list text) : Prop := Forall no_newline ls /\ out = ended ls.

Section Reports.
Context {T : Type} {N : Num T}.

(** A comma separated table: a title, a line with the column names, then one line for each row,
    which holds the number of the row, counted from 1, and its values. *)
Definition table_text (title unit : text) (write : T -> text) (rows : list (list T)) (out : text) : Prop :=
  exists header ls, full_lines out (title :: header :: ls) /\ has_fields header (unit :: uses) /\ List.length ls = List.length rows /\
    forall i row line, nth_error rows i = Some row -> nth_error ls i = Some line ->
      exists n, numeral (i + 1) n /\ has_fields line (n :: map (fun x => blank :: write x) row).

(** The cells of a line of a comparison: between commas with a blank after each comma, or between
    bars with a blank on both sides. *)
Definition comma_cells (line : text) (cells : list text) : Prop :=
  match cells with [] => False | c :: r => has_fields line (c :: map (cons blank) r) end.
Definition bar_cells (line : text) (cells : list text) : Prop :=
  line = joined "|" ([] :: map (fun c => blank :: c ++ [blank]) cells ++ [[]]) /\ Forall (fun c => ~ In "|" c) cells.
Definition cells_of (markdown : bool) : text -> list text -> Prop := if markdown then bar_cells else comma_cells.

(** The comparison of one end use [k]: column names, in markdown a rule, twelve lines with month,
    monthly result, hourly result and difference, and an empty line.  [first] is the number of the
    first month. *)
Definition comparison (first : nat) (markdown : bool) (write : T -> text) (k : nat) (monthly hourly : list (list T)) (ls : list text) : Prop :=
  exists name header body, nth_error uses k = Some name /\
    ls = header :: (if markdown then [tx "|---|---|---|---|"] else []) ++ body ++ [[]] /\
    cells_of markdown header [tx "Month"; tx "Monthly " ++ name; tx "Hourly " ++ name; tx "Difference"] /\
    List.length body = 12 /\
    forall i line, nth_error body i = Some line -> exists n x y,
      numeral (first + i) n /\ cell monthly i k = Some x /\ cell hourly i k = Some y /\
      cells_of markdown line [n; write x; write y; write (nsub x y)].
(** All thirteen of them. *)
Definition comparison_text (first : nat) (markdown : bool) (write : T -> text) (monthly hourly : list (list T)) (out : text) : Prop :=
  exists blocks, full_lines out (concat blocks) /\ List.length blocks = 13 /\
    forall k b, nth_error blocks k = Some b -> comparison first markdown write k monthly hourly b.
End Reports.

(** What a user can ask for on the command line. *)
Inductive request := Compare (markdown : bool) | UnknownCompare | MonthlyTable | HourlyTable (byMonth : bool).
Definition same_text (a b : text) : bool := if list_eq_dec ascii_dec a b then true else false.
Definition compare_request (kind : text) : request :=
  if same_text kind (tx "md") then Compare true else if same_text kind (tx "csv") then Compare false else UnknownCompare.
(** The requests of a command line in the order in which they are served; none at all means the
    monthly table. *)
Definition requests (compare : option text) (monthly byMonth byHour : bool) : list request :=
  let asked := match compare with Some kind => [compare_request kind] | None => [] end ++
               (if monthly then [MonthlyTable] else []) ++ (if byMonth then [HourlyTable true] else []) ++ (if byHour then [HourlyTable false] else []) in
  match asked with [] => [MonthlyTable] | _ => asked end.

Section Requests.
Context {T : Type} {N : Num T}.
(** The text that serves a request, when [monthly] holds of the result of the monthly simulation and
    [hourly agg] of that of the hourly simulation.  [write d] writes a number with d digits;
    [hourly_digits] is how many digits the hourly table has. *)
Definition serves (write : nat -> T -> text) (hourly_digits : nat) (monthly : list (list T) -> Prop) (hourly : bool -> list (list T) -> Prop)
    (r : request) (out : text) : Prop :=
  match r with
  | Compare md => exists mo ho, monthly mo /\ hourly true ho /\ comparison_text 0 md (write 6) mo ho out
  | UnknownCompare => full_lines out [tx "No output type given for compare. Please use 'md' or 'csv'."]
  | MonthlyTable => exists rows, monthly rows /\ List.length rows = 12 /\ table_text (tx "Monthly Results:") (tx "Month") (write 10) rows out
  | HourlyTable true => exists rows, hourly true rows /\ List.length rows = 12 /\
      table_text (tx "Hourly results by month:") (tx "month") (write hourly_digits) rows out
  | HourlyTable false => exists rows, hourly false rows /\ Z.of_nat (List.length rows) = 8760%Z /\
      table_text (tx "Hourly results by hour:") (tx "hour") (write hourly_digits) rows out
  end.
(** The simulations a request needs. *)
Definition needs_monthly (r : request) : bool := match r with Compare _ | MonthlyTable => true | _ => false end.
Definition needs_hourly (r : request) (byMonth : bool) : bool :=
  match r with Compare _ => byMonth | HourlyTable b => Bool.eqb b byMonth | _ => false end.
End Requests.
