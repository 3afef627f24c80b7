(** EpwData::toISOData and UserModel::initializeSolar: the weather summary as text and back. *)
From Coq Require Import Ascii String ZArith DecimalString.
From Verif Require Import Base Num Text M_Text M_TimeFrame M_Properties M_Epw M_Solar.
Open Scope nat_scope.
Open Scope char_scope.
Open Scope list_scope.

(** UserModel.cpp 75-95.  [cur] is the part of the current field already scanned; find_first_of and
    substr are replaced by one scan of the bytes. *)
Fixpoint splitScan (delimiter : ascii) (keepEmpty : bool) (cur rest : text) : list text :=
  match rest with
  | [] => match cur with [] => [] | _ => [cur] end
  | c :: t =>
      if Ascii.eqb c delimiter
      then (if keepEmpty || negb (Nat.eqb (List.length cur) 0) then [cur] else []) ++ splitScan delimiter keepEmpty [] t
      else splitScan delimiter keepEmpty (cur ++ [c]) t
  end.
Definition stringSplit (source : text) (delimiter : ascii) (keepEmpty : bool) : list text :=
  match source with [] => [] | _ => splitScan delimiter keepEmpty [] source end.

(** [stream << i] for a non-negative int. *)
Definition showInt (i : nat) : text := tx (NilZero.string_of_uint (Nat.to_uint i)).

(** UserModel.cpp 336-352. *)
Definition weatherState (header : text) : Z :=
  if text_eqb header "solar"%string then 1
  else if text_eqb header "hdbt"%string then 2
  else if text_eqb header "hEgh"%string then 3
  else if text_eqb header "mEgh"%string then 4
  else if text_eqb header "mdbt"%string then 5
  else if text_eqb header "mwind"%string then 6
  else (-1).

Section IsoText.
Context {T : Type} {N : Num T}.
(** [fmt x] is what [stream << x] writes for a double (six significant digits). *)
Variable fmt : T -> text.
Variable rd : reader T.

(** One line of a table: the row number, then the values, each after a comma; std::endl. *)
Definition isoRow (i : nat) (values : list T) : text :=
  showInt i ++ concat (map (fun x => "," :: fmt x) values) ++ [newline].
(** [name << std::endl], then twelve rows.  Reading past the twelve rows or the row is undefined. *)
Definition isoTable (name : text) (row : nat -> outcome (list T)) : outcome text :=
  do rows <- omap (fun i => do v <- row i; Ok (isoRow i v)) (seq 0 12);
  Ok (name ++ [newline] ++ concat rows).
(** [pos.xxx()[i]] and the inner loops. *)
Definition scalarRow (v : list T) (i : nat) : outcome (list T) := do x <- vget v i; Ok [x].
Definition matrixRow (n : nat) (m : list (list T)) (i : nat) : outcome (list T) :=
  do r <- vget m i; omap (vget r) (seq 0 n).

(** EpwData.cpp 76-114: the text for calculated averages. *)
Definition isoText (a : averages T) : outcome text :=
  do t1 <- isoTable "mdbt"%string (scalarRow (av_mdbt a));
  do t2 <- isoTable "mwind"%string (scalarRow (av_mwind a));
  do t3 <- isoTable "mEgh"%string (scalarRow (av_megh a));
  do t4 <- isoTable "hdbt"%string (matrixRow 24 (av_hdbt a));
  do t5 <- isoTable "hEgh"%string (matrixRow 24 (av_hegh a));
  do t6 <- isoTable "solar"%string (matrixRow 8 (av_msol a));
  Ok (t1 ++ t2 ++ t3 ++ t4 ++ t5 ++ t6).
(** EpwData.cpp 70-115; the tilt argument has the default PI (SolarRadiation.hpp 226). *)
Definition toISOData (e : epw T) : outcome text :=
  do frame <- timeFrame;
  do pos <- newSolar e PI_;
  do pos <- calculate frame (ep_data e) pos;
  isoText (so_avg pos).

(** WeatherData.hpp 100-106.  [None] is an element that was never assigned. *)
Record weather := mkWd {
  wd_msolar : list (list (option T));
  wd_mhdbt : list (list (option T));
  wd_mhEgh : list (list (option T));
  wd_mEgh : list (option T);
  wd_mdbt : list (option T);
  wd_mwind : list (option T) }.
(** WeatherData.cpp 6-8: empty vectors and matrices. *)
Definition newWeather : weather := mkWd [] [] [] [] [] [].
(** UserModel.cpp 441-446: sized, not filled. *)
Definition blankWeather : weather :=
  mkWd (repeat (repeat None 8) 12) (repeat (repeat None 24) 12) (repeat (repeat None 24) 12)
       (repeat None 12) (repeat None 12) (repeat None 12).

(** [m(row, c - 1) = atof(linesplit[c].c_str())] for c = 1, 2, ... below the limit; [n] is c - 1. *)
Fixpoint fillRow (fields : list text) (n limit : nat) (r : list (option T)) : outcome (list (option T)) :=
  match fields with
  | [] => Ok r
  | f :: fs => if (n <? limit)%nat then do r' <- vset r n (Some (rd_atof rd f)); fillRow fs (S n) limit r' else Ok r
  end.
Definition fillMatrix (fields : list text) (limit row : nat) (m : list (list (option T))) : outcome (list (list (option T))) :=
  do r <- vget m row; do r' <- fillRow (tl fields) 0 limit r; vset m row r'.
(** [v[row] = atof(linesplit[1].c_str())]. *)
Definition fillVector (fields : list text) (row : nat) (v : list (option T)) : outcome (list (option T)) :=
  do f <- vget fields 1; vset v row (Some (rd_atof rd f)).
(** UserModel.cpp 465-491: the switch. *)
Definition fillTable (state : Z) (row : nat) (fields : list text) (w : weather) : outcome weather :=
  let '(mkWd so hd he me md mw) := w in
  if (state =? 1)%Z then do so <- fillMatrix fields 8 row so; Ok (mkWd so hd he me md mw)
  else if (state =? 2)%Z then do hd <- fillMatrix fields 24 row hd; Ok (mkWd so hd he me md mw)
  else if (state =? 3)%Z then do he <- fillMatrix fields 24 row he; Ok (mkWd so hd he me md mw)
  else if (state =? 4)%Z then do me <- fillVector fields row me; Ok (mkWd so hd he me md mw)
  else if (state =? 5)%Z then do md <- fillVector fields row md; Ok (mkWd so hd he me md mw)
  else if (state =? 6)%Z then do mw <- fillVector fields row mw; Ok (mkWd so hd he me md mw)
  else Ok w.
(** UserModel.cpp 453-493: one line; the state is (state, row, tables). *)
Definition isoLine (st : Z * nat * weather) (line : text) : outcome (Z * nat * weather) :=
  let '(state, row, w) := st in
  match line with
  | "#" :: _ => Ok st
  | _ =>
      match stringSplit line "," true with
      | [] => Ok st
      | [h] => Ok (weatherState h, 0, w)
      | fields => if (row <? 12)%nat then do w' <- fillTable state row fields w; Ok (state, S row, w') else Ok st
      end
  end.
(** UserModel.cpp 437-501: the tables read from the text; the setters copy all six. *)
Definition readIso (content : text) : outcome weather :=
  do r <- ofold isoLine (goodlines [] content) (0%Z, 0, blankWeather); Ok (snd r).
Definition initializeSolar (e : epw T) : outcome weather :=
  do content <- toISOData e; readIso content.
End IsoText.
Arguments weather T : clear implicits.
