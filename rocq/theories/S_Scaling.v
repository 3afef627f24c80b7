(** Which parameters an end use is proportional or inversely proportional to, by their
    names in the building file. *)
From Coq Require Import Reals String List ZArith.
From Verif Require Import Base Num Xr M_Params M_UserModel S_Loading S_Results S_Inputs.
Import ListNotations.
Open Scope string_scope.

(** The parameter with this file name is [c] times as large in the second building. *)
Definition multiplied (c : R) (key : string) (u u' : building_model xr) : Prop :=
  forall p, In (key, p) (required_numbers ++ optional_numbers) -> p u' = xmul (p u) (Fin c).

Inductive relation := Proportional | Inverse.
Definition factor (d : relation) (c : R) : R := match d with Proportional => c | Inverse => (/ c)%R end.

(** End use, the parameters (all multiplied together), and the kind of dependence. *)
Definition hourly_scaling : list (nat * list string * relation) :=
  [(elec_heating, ["heatingsystemefficiency"], Inverse);
   (gas_heating, ["heatingsystemefficiency"], Inverse);
   (elec_cooling, ["coolingsystemcop"], Inverse);
   (elec_int_lights, ["lightingpowerdensityoccupied"; "lightingpowerdensityunoccupied"], Proportional);
   (elec_ext_lights, ["exteriorlightingpower"], Proportional);
   (elec_fans, ["specificfanpower"], Proportional);
   (elec_pumps, ["e_pumps_ht"; "e_pumps_cl"], Proportional);
   (elec_pumps, ["heatingpumpcontrol"; "coolingpumpcontrol"], Proportional);
   (elec_int_equip, ["electricappliancepowerdensityoccupied"; "electricappliancepowerdensityunoccupied"], Proportional);
   (elec_ext_equip, ["externalequipment"], Proportional)].

Definition monthly_scaling : list (nat * list string * relation) :=
  [(elec_int_lights, ["lightingpowerdensityoccupied"; "lightingpowerdensityunoccupied"], Proportional);
   (elec_ext_lights, ["exteriorlightingpower"], Proportional);
   (elec_fans, ["specificfanpower"], Proportional);
   (elec_int_equip, ["electricappliancepowerdensityoccupied"; "electricappliancepowerdensityunoccupied"], Proportional);
   (gas_equip, ["gasappliancepowerdensityoccupied"; "gasappliancepowerdensityunoccupied"], Proportional);
   (elec_dhw, ["dhwdemand"], Proportional); (gas_dhw, ["dhwdemand"], Proportional);
   (elec_dhw, ["dhwsystemefficiency"], Inverse); (gas_dhw, ["dhwsystemefficiency"], Inverse);
   (elec_dhw, ["dhwdistributionefficiency"], Inverse); (gas_dhw, ["dhwdistributionefficiency"], Inverse)].

(** The other parameters an end use depends on. *)
Definition without (keys : list string) (l : list string) : list string :=
  filter (fun key => negb (existsb (String.eqb key) keys)) l.
(** An end use in all the rows of a table. *)
Definition column {T} (k : nat) (rows : list (list T)) : list (option T) := map (fun row => nth_error row k) rows.
Definition all_times (f : R) (l : list (option xr)) : list (option xr) := map (option_map (fun x => xmul x (Fin f))) l.
(** The parameters the monthly engine divides these end uses by. *)
Definition divisors : list string := ["floorarea"; "dhwsystemefficiency"; "dhwdistributionefficiency"].
Definition nonzero_parameter (key : string) (u : building_model xr) : Prop :=
  forall p, In (key, p) (required_numbers ++ optional_numbers) -> p u <> Fin 0.
(** The parameter with this file name is the real number [x]. *)
Definition has_value (key : string) (x : R) (u : building_model xr) : Prop :=
  forall p, In (key, p) (required_numbers ++ optional_numbers) -> p u = Fin x.
(** The building is not heated (cooled) by a district network, and the losses of a network are not divided by zero. *)
Definition own_plant (yesno share eta1 eta2 : string) (u : building_model xr) : Prop :=
  has_value yesno 0 u /\ (exists s, has_value share s u) /\
  exists a b, has_value eta1 a u /\ has_value eta2 b u /\ (a * b <> 0)%R.
(** The monthly engine adds the smallest positive normal double to the efficiency it divides by. *)
Definition efficiency_ratio (e e' : R) : R := ((e + Rdblmin) / (e' + Rdblmin))%R.
(** The parameters the pumps depend on besides the needs. *)
Definition pump_powers : list string := ["e_pumps_ht"; "e_pumps_cl"].
Definition pump_controls : list string := ["heatingpumpcontrol"; "coolingpumpcontrol"].
