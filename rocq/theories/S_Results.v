(** How result tables are read: rows of thirteen end uses, in the order printed by
    standalone_main.cpp 25-27 (ElecHeat, ElecCool, ..., GasDHW). *)
From Coq Require Import List.
Import ListNotations.

Definition elec_heating : nat := 0.
Definition elec_cooling : nat := 1.
Definition elec_int_lights : nat := 2.
Definition elec_ext_lights : nat := 3.
Definition elec_fans : nat := 4.
Definition elec_pumps : nat := 5.
Definition elec_int_equip : nat := 6.
Definition elec_ext_equip : nat := 7.
Definition elec_dhw : nat := 8.
Definition gas_heating : nat := 9.
Definition gas_cooling : nat := 10.
Definition gas_equip : nat := 11.
Definition gas_dhw : nat := 12.

(** [v] is the series of end use [k] over all the rows of a result table. *)
Definition is_series {T} (k : nat) (rows : list (list T)) (v : list T) : Prop :=
  Forall2 (fun row x => nth_error row k = Some x) rows v.

(** The table has [n] rows of thirteen end uses. *)
Definition table_shape {T} (n : nat) (rows : list (list T)) : Prop :=
  length rows = n /\ Forall (fun row => length row = 13) rows.
