(** Model of EpwData.{hpp,cpp}, without toISOData (see M_IsoText.v). *)
From Coq Require Import Ascii String ZArith.
From Verif Require Import Base Num Text M_Text M_TimeFrame M_Properties.
Open Scope nat_scope.
Open Scope char_scope.
Open Scope list_scope.

Section Epw.
Context {T : Type} {N : Num T}.

(** EpwData.hpp 51-54.  [ep_site] is (m_latitude, m_longitude, m_timezone): the constructor leaves
    them uninitialised, every load sets all three. *)
Record epw := mkEpw {
  ep_location : text;
  ep_station : text;
  ep_site : option (T * T * Z);
  ep_data : list (list T) }.

(** EpwData.cpp 6-9: seven empty columns. *)
Definition newEpw : epw := mkEpw [] [] None (repeat [] 7).

(** EpwData.hpp 38-44: the columns. *)
Definition DBT : nat := 0.
Definition DPT : nat := 1.
Definition RH : nat := 2.
Definition EGH : nat := 3.
Definition EB : nat := 4.
Definition ED : nat := 5.
Definition WSPD : nat := 6.

(** TIMESLICES as a size. *)
Definition slices : nat := Z.to_nat TIMESLICES.

(** [std::getline(linestream, s, ',')] (EpwData.cpp 21, 54).  The state is what is left of the
    line ([None] once the end was met) and the variable s; at the end s keeps its value. *)
Definition next_field (st : option text * text) : option text * text :=
  match fst st with
  | None => st
  | Some r =>
      match find_first_of "," r with
      | Some n => (Some (skipn (S n) r), firstn n r)
      | None => (None, r)
      end
  end.
(** The values of s in n rounds of the loop. *)
Fixpoint fields_from (n : nat) (st : option text * text) : list text :=
  match n with
  | O => []
  | S n' => let st' := next_field st in snd st' :: fields_from n' st'
  end.
Definition fields (n : nat) (line : text) : list text := fields_from n (Some line, []).

(** EpwData.cpp 15-47. *)
Definition parseHeader (rd : reader T) (line : text) (e : epw) : outcome epw :=
  let s := fields 10 line in
  do location <- vget s 1;
  do station <- vget s 5;
  do lat <- vget s 6;
  do lon <- vget s 7;
  do zone <- vget s 8;
  match ntrunc (rd_atof rd zone) with
  | Some tz => Ok (mkEpw location station (Some (rd_atof rd lat, rd_atof rd lon, tz)) (ep_data e))
  | None => UB
  end.

(** EpwData.cpp 56-62: the position in the line of each column. *)
Definition column_fields : list (nat * nat) :=
  [(DBT, 6); (DPT, 7); (RH, 8); (EGH, 13); (EB, 14); (ED, 15); (WSPD, 21)].

(** [m_data[col][row] = x]. *)
Definition put_cell (row : nat) (x : T) (col : nat) (data : list (list T)) : outcome (list (list T)) :=
  do v <- vget data col; do v' <- vset v row x; vset data col v'.

(** EpwData.cpp 48-69. *)
Definition parseData (rd : reader T) (line : text) (row : nat) (e : epw) : outcome epw :=
  let s := fields 22 line in
  do data <- ofold (fun data (cf : nat * nat) =>
                      do f <- vget s (snd cf); put_cell row (rd_atof rd f) (fst cf) data)
                   column_fields (ep_data e);
  Ok (mkEpw (ep_location e) (ep_station e) (ep_site e) data).

(** vector::resize(n), filling with 0.0. *)
Definition resize (n : nat) (v : list T) : list T := firstn n v ++ repeat (zn 0) (n - List.length v).

(** EpwData.cpp 145-153: the loop over the lines, [i] and [row] as there. *)
Fixpoint readRows (rd : reader T) (ls : list text) (i row : Z) (e : epw) : outcome epw :=
  match ls with
  | [] => Ok e
  | line :: rest =>
      if (row <? TIMESLICES)%Z then
        let i := (i + 1)%Z in
        if (i =? 1)%Z then do e <- parseHeader rd line e; readRows rd rest i row e
        else if (8 <? i)%Z then do e <- parseData rd line (Z.to_nat row) e; readRows rd rest i (row + 1)%Z e
        else readRows rd rest i row e
      else Ok e
  end.

(** EpwData.cpp 135-157.  The file is its content, [None] when it cannot be opened. *)
Definition loadFile (rd : reader T) (file : option text) (e : epw) : outcome epw :=
  let e1 := mkEpw (ep_location e) (ep_station e) (ep_site e) (map (resize slices) (ep_data e)) in
  match file with
  | None => Ok e1
  | Some content => readRows rd (goodlines [] content) 0 0 e1
  end.

(** EpwData.cpp 128-131: the inner loop, [ptr] the index of the value read next. *)
Definition copyValue (values : list T) (st : list T * nat) (i : Z) : outcome (list T * nat) :=
  do x <- vget values (snd st);
  do col <- vset (fst st) (Z.to_nat i) x;
  Ok (col, S (snd st)).
(** EpwData.cpp 125-132: one column. *)
Definition copyColumn (size : Z) (values : list T) (st : list (list T) * nat) (c : Z) : outcome (list (list T) * nat) :=
  do col <- vget (fst st) (Z.to_nat c);
  do r <- ofold (copyValue values) (zrange 0 size) (resize slices col, snd st);
  do data <- vset (fst st) (Z.to_nat c) (fst r);
  Ok (data, snd r).
(** EpwData.cpp 117-133.  [values] is the array behind the pointer; reading past its end is
    undefined. *)
Definition loadBlock (size : Z) (values : list T) (e : epw) : outcome epw :=
  do lat <- vget values 0;
  do lon <- vget values 1;
  do zone <- vget values 2;
  match ntrunc zone with
  | None => UB
  | Some tz =>
      do r <- ofold (copyColumn size values) (zrange 0 7) (ep_data e, 3);
      Ok (mkEpw (ep_location e) (ep_station e) (Some (lat, lon, tz)) (fst r))
  end.
End Epw.
Arguments epw T : clear implicits.
