(** Model of TimeFrame.{hpp,cpp}. *)
From Verif Require Import Base.
Open Scope Z_scope.

(** TimeFrame.hpp 26: const int TIMESLICES = 8760. *)
Definition TIMESLICES : Z := 8760.

(** One index of the five parallel arrays Hour, DayOfMonth, DayOfWeek, Month, YTD
    (TimeFrame.hpp 41-53).  Simplification: the five arrays are one array of
    records, because every assignment writes all five at the same index. *)
Record tcell := { tc_hour : Z; tc_dom : Z; tc_dow : Z; tc_month : Z; tc_ytd : Z }.

(** TimeFrame.cpp 35-48, TimeFrame::monthLength. *)
Definition monthLength (month : Z) : Z :=
  match month with
  | 2 => 28
  | 4 | 6 | 9 | 11 => 30
  | _ => 31
  end.

(** The local variables of the constructor (TimeFrame.cpp 7-9) and the arrays.
    Cells not yet written are [None]: the arrays are uninitialised members. *)
Record tfstate := { ts_arr : list (option tcell); ts_hoy : Z; ts_doy : Z; ts_dow : Z }.

(** TimeFrame.cpp 7-9: before the loops. *)
Definition tf_init : tfstate :=
  {| ts_arr := repeat None (Z.to_nat TIMESLICES); ts_hoy := 0; ts_doy := 0; ts_dow := 0 |}.

(** TimeFrame.cpp 15-22: body of the innermost loop (one hour). *)
Definition tf_hour_body (month dom : Z) (s : tfstate) (h : Z) : outcome tfstate :=
  let c := {| tc_hour := h; tc_dom := dom; tc_dow := ts_dow s; tc_month := month; tc_ytd := ts_doy s |} in
  do a <- vset (ts_arr s) (Z.to_nat (ts_hoy s)) (Some c);
  Ok {| ts_arr := a; ts_hoy := ts_hoy s + 1; ts_doy := ts_doy s; ts_dow := ts_dow s |}.

(** TimeFrame.cpp 14-25: one day: 24 hours, then ++dayOfYear and the weekday step. *)
Definition tf_day_body (month : Z) (s : tfstate) (dom : Z) : outcome tfstate :=
  do s1 <- ofold (tf_hour_body month dom) (zrange 0 24) s;
  Ok {| ts_arr := ts_arr s1; ts_hoy := ts_hoy s1; ts_doy := ts_doy s1 + 1;
        ts_dow := if ts_dow s1 =? 6 then 0 else ts_dow s1 + 1 |}.

(** TimeFrame.cpp 12-26: one month. *)
Definition tf_month_body (s : tfstate) (month : Z) : outcome tfstate :=
  ofold (tf_day_body month) (zrange 1 (monthLength month)) s.

(** TimeFrame.cpp 5-28: the constructor. *)
Definition tf_ctor : outcome tfstate := ofold tf_month_body (zrange 1 12) tf_init.

(** The object seen by its users: the array, or [UB] if a write was out of range. *)
Definition timeFrame : outcome (list (option tcell)) := do s <- tf_ctor; Ok (ts_arr s).
