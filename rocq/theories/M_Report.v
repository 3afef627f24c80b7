(** The results as they are built and added up without ISOMODEL_STANDALONE, for OpenStudio.
    The classes EndUses, EndUseFuelType and EndUseCategoryType of that build come from OpenStudio and are not
    in the repository: they are modelled as a table of values by fuel and category, empty at first, in which
    addEndUse adds to an entry and getEndUse of an absent entry is 0. *)
From Coq Require Import List ZArith.
From Verif Require Import Base Num M_Params M_Hourly M_Monthly.
Import ListNotations.

(** The fuels and categories named in HourlyModel.cpp 169-182; the others are numbered. *)
Inductive fuel := Electricity | Gas | FuelNo (n : nat).
Inductive category := Heating | Cooling | InteriorLights | ExteriorLights | Fans | Pumps | InteriorEquipment | ExteriorEquipment | WaterSystems
  | CategoryNo (n : nat).
(** Equality of keys. *)
Definition fuel_no (f : fuel) : nat := match f with Electricity => 0 | Gas => 1 | FuelNo n => n + 2 end.
Definition category_no (c : category) : nat :=
  match c with
  | Heating => 0 | Cooling => 1 | InteriorLights => 2 | ExteriorLights => 3 | Fans => 4 | Pumps => 5 | InteriorEquipment => 6
  | ExteriorEquipment => 7 | WaterSystems => 8 | CategoryNo n => n + 9
  end.
Definition key_eqb (a b : fuel * category) : bool :=
  (Nat.eqb (fuel_no (fst a)) (fuel_no (fst b)) && Nat.eqb (category_no (snd a)) (category_no (snd b)))%bool.

Section Report.
Context {T : Type} {N : Num T}.
Definition os_enduses := list ((fuel * category) * T).

(** EndUses::getEndUse(fuel, category) of OpenStudio, see above. *)
Fixpoint os_get (e : os_enduses) (k : fuel * category) : T :=
  match e with
  | [] => zn 0
  | (k', v) :: r => if key_eqb k' k then v else os_get r k
  end.
(** EndUses::addEndUse(value, fuel, category) of OpenStudio, see above. *)
Fixpoint os_add (e : os_enduses) (v : T) (k : fuel * category) : os_enduses :=
  match e with
  | [] => [(k, v)]
  | (k', v') :: r => if key_eqb k' k then (k', nadd v' v) :: r else (k', v') :: os_add r v k
  end.

(** HourlyModel.cpp 169-182 and MonthlyModel.cpp 1784-1797: the thirteen calls in order. *)
Definition os_slots : list (fuel * category) :=
  [(Electricity, Heating); (Electricity, Cooling); (Electricity, InteriorLights); (Electricity, ExteriorLights); (Electricity, Fans); (Electricity, Pumps);
   (Electricity, InteriorEquipment); (Electricity, ExteriorEquipment); (Electricity, WaterSystems);
   (Gas, Heating); (Gas, Cooling); (Gas, InteriorEquipment); (Gas, WaterSystems)].
(** One time step: [row] holds the thirteen values in the order of the calls. *)
Definition os_row (row : list T) : os_enduses := fold_left (fun e kv => os_add e (snd kv) (fst kv)) (combine os_slots row) [].

(** HourlyModel.cpp 26-187 in this build. *)
Definition os_simulate (p : params_t T) (ws : list (weather T)) (r0 : ratios T) (aggregateByMonth : bool) : outcome (list os_enduses * ratios T) :=
  do (rows, r) <- simulate p ws r0 aggregateByMonth; Ok (map os_row rows, r).

(** MonthlyModel.cpp 1513-1718 in this build. *)
Definition os_monthly (p : params_t T) (w : mweather T) : outcome (list os_enduses) :=
  do rows <- simulateMonthly p w; Ok (map os_row rows).

(** ISOResults.cpp 26-40.  [fuels] and [categories] are EndUses::fuelTypes() and EndUses::categories(). *)
Definition totalEnergyUse (fuels : list fuel) (categories : list category) (results : list os_enduses) : T :=
  fold_left (fun total result =>
    fold_left (fun total f =>
      fold_left (fun total c => nadd total (os_get result (f, c))) categories total) fuels total) results (zn 0).
End Report.
