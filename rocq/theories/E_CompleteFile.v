(** The office file with a line for every optional parameter in front. *)
From Coq Require Import Ascii String.
From Verif Require Import Base Num Text M_Text M_Properties M_Params M_UserModel S_Text S_Loading S_Reload E_OfficeFile.
Open Scope list_scope.

Definition line (key value : string) : text := tx key ++ tx " = " ++ tx value ++ [newline].
Definition completeText : text :=
  concat (map (fun e => line (fst e) "0.5") (@optional_numbers unit)) ++
  concat (map (fun e => line (fst e) "false") (@optional_flags unit)) ++
  line "vent_rate_flag" "1" ++ officeText.
(** The office file with one optional parameter, the height of the zone. *)
Definition lowOfficeText : text := line "hzone" "12" ++ officeText.
