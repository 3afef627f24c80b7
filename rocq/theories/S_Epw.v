(** What an EPW file contains, and what a block of weather values contains. *)
From Coq Require Import Ascii String ZArith.
From Verif Require Import Base Text S_Text.
Open Scope nat_scope.
Open Scope char_scope.
Open Scope list_scope.

(** The fields of a line: no field contains a comma. *)
Definition has_fields (line : text) (fs : list text) : Prop :=
  fs <> [] /\ line = joined "," fs /\ Forall (fun f => ~ In "," f) fs.

(** Columns of the weather data (0 dry bulb, 1 dew point, 2 relative humidity, 3 global horizontal,
    4 direct normal, 5 diffuse horizontal, 6 wind speed) and the position of their field in an EPW
    data line, counted from 1 as in the EPW format. *)
Definition epw_format : list (nat * nat) := [(0, 7); (1, 8); (2, 9); (3, 14); (4, 15); (5, 16); (6, 22)].

(** The cell of a table. *)
Definition cell {A} (t : list (list A)) (col row : nat) : option A :=
  match nth_error t col with Some v => nth_error v row | None => None end.

(** Seven columns of 8760 values. *)
Definition year_table {A} (t : list (list A)) : Prop :=
  length t = 7 /\ Forall (fun v => Z.of_nat (length v) = 8760%Z) t.
