(** Loading several building files into one object, in the words of the interface. *)
From Coq Require Import Ascii String.
From Verif Require Import Base Num Text M_Text M_Properties M_Params M_UserModel S_Text S_Loading S_Access.
Open Scope list_scope.

(** Loading files one after the other (UserModel.cpp 322-327 called several times). *)
Definition load_all {T} {N : Num T} (rd : reader T) (files : list (option text)) (u : building_model T)
  : outcome (building_model T) := ofold (fun v f => loadBuilding rd f v) files u.

(** The property map gives an optional parameter a usable value. *)
Definition gives_number {T} (rd : reader T) (k : string) (m : props) (x : T) : Prop :=
  exists s, getProperty m (tx k) = Some s /\ rd_stod rd s = Value x.
Definition gives_integer {T} (rd : reader T) (k : string) (m : props) (z : Z) : Prop :=
  exists s, getProperty m (tx k) = Some s /\ rd_stoi rd s = Value z.
Definition gives_flag (k : string) (m : props) (b : bool) : Prop :=
  getProperty m (tx k) = Some (tx (if b then "true" else "false")).

(** The property map gives every optional parameter a usable value. *)
Definition gives_all {T} (rd : reader T) (m : props) : Prop :=
  (forall k p, In (k, p) (@optional_numbers T) -> exists x, gives_number rd k m x) /\
  (forall k p, In (k, p) (@optional_flags T) -> exists b, gives_flag k m b) /\
  (exists z, gives_integer rd (fst (@optional_integer T)) m z).

(** Two buildings have the same required parameters. *)
Definition same_required {T} (u v : building_model T) : Prop :=
  (forall k p, In (k, p) required_numbers -> p u = p v) /\
  (forall k p words, In (k, p, words) required_words -> p u = p v) /\
  (forall k p, In (k, p) required_vectors -> p u = p v) /\
  bm_weatherFilePath u = bm_weatherFilePath v.
