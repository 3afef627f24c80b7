(** Files and a way of writing numbers for the concrete runs of the program. *)
From Coq Require Import Ascii String ZArith.
From Verif Require Import Base Num Text S_Main M_IsoText M_UserModel E_SmallOffice E_Monthly E_OfficeFile E_EpwFile.
Open Scope list_scope.

(** The shipped building file behind a first line that gives every window shading device 1. *)
Definition codedText : text := tx "windowSDF = 1.0,1.0,1.0,1.0,1.0,1.0,1.0,1.0,1.0" ++ [newline] ++ officeText.
(** A directory with both buildings and the weather file they name. *)
Definition demoFiles (name : text) : option text :=
  if same_text name (tx "office.ism") then Some officeText
  else if same_text name (tx "coded.ism") then Some codedText
  else if same_text name (tx "ORD.epw") then Some epwSample else None.
(** Numbers written as the number of digits asked for: of every number the same, but with different
    text for 6 and for 10 digits. *)
Definition digitWriter {T} (d : nat) (x : T) : text := showInt d.
