(** Loading a building in the unit test target, which is compiled with USE_NEW_BUILDING_PARAMS
    (IsoModel/src/CMakeLists.txt 125-129). *)
From Coq Require Import Ascii String.
From Verif Require Import Base Num Text M_Text M_Properties M_Params M_UserModel M_Access.
Open Scope list_scope.

(** UserModel.cpp 176-188: nine numbers and the path of a schedule file, all required. *)
Inductive new_binding := NDouble (key : text) (f : extra_field) | NSchedule (key : text).
Definition new_bindings : list new_binding := [
  NDouble "ventilationIntakeRateUnoccupied"%string X_VentilationIntakeRateUnoccupied;
  NDouble "ventilationExhaustRateUnoccupied"%string X_VentilationExhaustRateUnoccupied;
  NDouble "infiltrationRateUnoccupied"%string X_InfiltrationRateUnoccupied;
  NDouble "lightingPowerFixedOccupied"%string X_LightingPowerFixedOccupied;
  NDouble "lightingPowerFixedUnoccupied"%string X_LightingPowerFixedUnoccupied;
  NDouble "electricAppliancePowerFixedOccupied"%string X_ElectricAppliancePowerFixedOccupied;
  NDouble "electricAppliancePowerFixedUnoccupied"%string X_ElectricAppliancePowerFixedUnoccupied;
  NDouble "gasAppliancePowerFixedOccupied"%string X_GasAppliancePowerFixedOccupied;
  NDouble "gasAppliancePowerFixedUnoccupied"%string X_GasAppliancePowerFixedUnoccupied;
  NSchedule "schedulefilepath"%string].

Section Load.
Context {T : Type} {N : Num T}.
(** UserModel.cpp 257-263 (double) and 293-299 (string) with required = true. *)
Definition initializeNew (rd : reader T) (m : props) (u : user_state T) (b : new_binding) : outcome (user_state T) :=
  match b with
  | NDouble key f =>
      do v <- getPropertyAsDouble rd m key;
      match v with
      | Some x => Ok (mkUserState (us_model u) (set_extra f x (us_extra u)) (us_schedule u))
      | None => Throw InvalidArgument
      end
  | NSchedule key =>
      match getProperty m key with
      | Some s => Ok (mkUserState (us_model u) (us_extra u) s)
      | None => Throw InvalidArgument
      end
  end.
Definition initializeOld (rd : reader T) (m : props) (u : user_state T) (b : binding T) : outcome (user_state T) :=
  do x <- initializeParameter rd m (us_model u) b; Ok (with_model u x).
(** UserModel.cpp 110-255 with the block: it stands before the 49th call, that for weatherfilepath. *)
Definition initializeParametersTest (rd : reader T) (m : props) (u : user_state T) : outcome (user_state T) :=
  do u1 <- ofold (initializeOld rd m) (firstn 48 parameter_bindings) u;
  do u2 <- ofold (initializeNew rd m) new_bindings u1;
  ofold (initializeOld rd m) (skipn 48 parameter_bindings) u2.
(** UserModel.cpp 322-327 and 329-334. *)
Definition loadTest (rd : reader T) (file : option text) (u : user_state T) : outcome (user_state T) :=
  do m <- propertiesOf file; do u1 <- initializeParametersTest rd m u; ofold (initializeOld rd m) structure_bindings u1.
Definition loadTest2 (rd : reader T) (file defaults : option text) (u : user_state T) : outcome (user_state T) :=
  do m <- propertiesOf2 file defaults; do u1 <- initializeParametersTest rd m u; ofold (initializeOld rd m) structure_bindings u1.
End Load.
