(** What the ten parameters of the unit test build have to be. *)
From Coq Require Import Ascii String.
From Verif Require Import Base Num Text M_Properties M_Params M_UserModel M_Access S_Access.
Open Scope list_scope.

(** Each of the nine numbers is in the file and its getter returns it; the schedule path is in the file and stored. *)
Definition ten_given {T} {N : Num T} (rd : reader T) (m : props) (u : user_state T) : Prop :=
  (forall key, In key only_in_tests -> key <> "schedulefilepath"%string ->
     exists s x, getProperty m (tx key) = Some s /\ rd_stod rd s = Value x /\ read key u = Some (Ok x)) /\
  getProperty m (tx "schedulefilepath") = Some (us_schedule u).
