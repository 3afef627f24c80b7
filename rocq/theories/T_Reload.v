(** C77: loading a building into an object that already holds one. *)
From Coq Require Import Ascii String Reals.
From Verif Require Import Base Num Text M_Text M_Properties M_Params M_UserModel S_Text S_Loading S_Access S_Reload.
From Verif Require Import Xr E_Decimal E_SmallOffice E_OfficeFile E_CompleteFile L_Reload.
Open Scope list_scope.

(** Whether a file loads does not depend on the building the object holds. *)
Theorem C77_accepts : forall T (N : Num T) (rd : reader T) file (u v : building_model T),
  (exists a, loadBuilding rd file u = Ok a) <-> (exists b, loadBuilding rd file v = Ok b).
Proof. exact @C77_accepts_l. Qed.
Print Assumptions C77_accepts.

(** Loading the same file again changes nothing. *)
Theorem C77_again : forall T (N : Num T) (rd : reader T) file (u a : building_model T),
  loadBuilding rd file u = Ok a -> loadBuilding rd file a = Ok a.
Proof. exact @C77_again_l. Qed.
Print Assumptions C77_again.

(** After any history of loads the required parameters are those of the last file alone. *)
Theorem C77_required : forall T (N : Num T) (rd : reader T) past f (u v a b : building_model T),
  load_all rd (past ++ [f]) u = Ok a -> loadBuilding rd f v = Ok b -> same_required a b.
Proof. exact @C77_required_l. Qed.
Print Assumptions C77_required.

(** When the last file gives every optional parameter a usable value the whole building is that
    of the last file alone: nothing of the earlier files remains.  The full property has no
    condition on the last file. *)
Theorem C77_replaced_partial : forall T (N : Num T) (rd : reader T) past f m (u v a b : building_model T),
  propertiesOf f = Ok m -> gives_all rd m ->
  load_all rd (past ++ [f]) u = Ok a -> loadBuilding rd f v = Ok b -> a = b.
Proof. exact @C77_after_complete_l. Qed.
Print Assumptions C77_replaced_partial.

Theorem C77_replaced_two_files_partial : forall T (N : Num T) (rd : reader T) file defaults m (u v a : building_model T),
  propertiesOf2 file defaults = Ok m -> gives_all rd m ->
  loadBuilding2 rd file defaults u = Ok a -> loadBuilding2 rd file defaults v = Ok a.
Proof. exact @C77_complete_two_l. Qed.
Print Assumptions C77_replaced_two_files_partial.

(** After any history of loads an optional parameter has the value of the last file that gives a
    usable one, which may be an earlier file. *)
Theorem C77_history : forall T (N : Num T) (rd : reader T) files ms (u a : building_model T),
  Forall2 (fun f m => propertiesOf f = Ok m) files ms -> load_all rd files u = Ok a ->
  (forall k p, In (k, p) optional_numbers -> value_after (gives_number rd k) (p u) ms (p a)) /\
  (forall k p, In (k, p) optional_flags -> value_after (gives_flag k) (p u) ms (p a)) /\
  (let (k, p) := optional_integer in value_after (gives_integer rd k) (p u) ms (p a)).
Proof. exact @C77_history_l. Qed.
Print Assumptions C77_history.

(** The full property is false: the zone height of the first file is used for the second building. *)
Theorem C77_replaced_refuted : exists first last (u v a b : building_model R),
  loadBuilding decimal_reader first u = Ok v /\ loadBuilding decimal_reader last v = Ok a /\
  loadBuilding decimal_reader last u = Ok b /\
  ve_hzone (pa_ventilation (bm_params a)) = 12%R /\ ve_hzone (pa_ventilation (bm_params b)) = 39%R.
Proof. exact C77_refuted_l. Qed.
Print Assumptions C77_replaced_refuted.

(** The hypotheses: a complete file that loads. *)
Example C77_complete_file : forall T (N : Num T), exists m a, propertiesOf (Some completeText) = Ok m /\
  gives_all (@decimal_reader T N) m /\ loadBuilding decimal_reader (Some completeText) freshOffice = Ok a.
Proof. exact complete_example. Qed.
(** A history of three loads. *)
Example C77_three_loads : forall T (N : Num T), exists a,
  load_all decimal_reader [Some lowOfficeText; Some officeText; Some completeText] freshOffice = Ok a.
Proof. intros. vm_compute. eauto. Qed.
