(** C98: what the unit tests load and what the program loads. *)
From Coq Require Import Ascii String.
From Verif Require Import Base Num Text M_Text M_Properties M_Params M_UserModel M_Access M_TestBuild S_Text S_Loading S_Access S_TestBuild.
From Verif Require Import E_SmallOffice E_Decimal E_OfficeFile E_ShortFile L_TestBuild.
Open Scope list_scope.

(** The unit test build loads a file exactly when the program does, with the same building, and the ten parameters
    are given; their getters return them. *)
Theorem C98_one_file : forall T (N : Num T) (rd : reader T) file (u u' : user_state T),
  loadTest rd file u = Ok u' <->
  exists m, propertiesOf file = Ok m /\ loadBuilding rd file (us_model u) = Ok (us_model u') /\ ten_given rd m u'.
Proof. exact @C98_one_l. Qed.
Print Assumptions C98_one_file.

Theorem C98_two_files : forall T (N : Num T) (rd : reader T) file defaults (u u' : user_state T),
  loadTest2 rd file defaults u = Ok u' <->
  exists m, propertiesOf2 file defaults = Ok m /\ loadBuilding2 rd file defaults (us_model u) = Ok (us_model u') /\ ten_given rd m u'.
Proof. exact @C98_two_l. Qed.
Print Assumptions C98_two_files.

(** In that build every parameter documented as required is required. *)
Theorem C98_required : forall T (N : Num T) (rd : reader T) file m (u u' : user_state T) key,
  In key documented_required -> propertiesOf file = Ok m -> loadTest rd file u = Ok u' -> exists s, getProperty m (tx key) = Some s.
Proof. exact @C98_required_l. Qed.
Print Assumptions C98_required.

(** The shipped office loads in both; without its last block only in the program. *)
Example C98_office : forall T (N : Num T), exists u' : user_state T,
  loadTest decimal_reader (Some officeText) freshUser = Ok u' /\ us_model u' = mkBuildingModel smallOffice (tx "ORD.epw") /\ us_schedule u' = tx "./schedule.txt".
Proof. exact @C98_office_l. Qed.
Example C98_short : forall T (N : Num T), loadTest decimal_reader (Some shortText) freshUser = Throw InvalidArgument /\
  exists x, loadBuilding decimal_reader (Some shortText) (us_model freshUser) = Ok x.
Proof. exact @C98_short_l. Qed.
