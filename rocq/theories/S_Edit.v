(** The same building with one parameter changed (what the setters of the API do). *)
From Verif Require Import M_Params.

(** Heating::setEnergyType *)
Definition with_energyType {T} (p : params_t T) (e : T) : params_t T :=
  match p with mkParams st (mkHeating a b c d _ f g h i j k l m n o q r s t u v w x) co ve li bu po ss ph te =>
    mkParams st (mkHeating a b c d e f g h i j k l m n o q r s t u v w x) co ve li bu po ss ph te end.

(** setStructure, setLighting, setBuilding, setHeating, setCooling of HourlyModel / MonthlyModel (Simulation.hpp). *)
Definition with_structure {T} (p : params_t T) (s : structure_t T) : params_t T :=
  match p with mkParams _ ht co ve li bu po ss ph te => mkParams s ht co ve li bu po ss ph te end.

(** The three parameters C15's counterexample changes: no lights, no appliances, a wide set-point band. *)
Definition with_no_loads {T} (p : params_t T) (zero lo hi : T) : params_t T :=
  match p with mkParams st (mkHeating _ _ c d e f g h i j k l m n o q r s t u v w x)
     (mkCooling _ _ c2 d2 e2 f2 g2 h2 i2 j2 k2 l2 m2 n2 o2 q2) ve
     (mkLighting _ _ c3 d3 e3 f3 g3 h3 i3 j3 k3 l3 m3 n3 o3 q3 r3 s3)
     (mkBuilding a4 b4 _ _ e4 f4 g4 h4) po ss ph te =>
   mkParams st (mkHeating lo lo c d e f g h i j k l m n o q r s t u v w x)
     (mkCooling hi hi c2 d2 e2 f2 g2 h2 i2 j2 k2 l2 m2 n2 o2 q2) ve
     (mkLighting zero zero c3 d3 e3 f3 g3 h3 i3 j3 k3 l3 m3 n3 o3 q3 r3 s3)
     (mkBuilding a4 b4 zero zero e4 f4 g4 h4) po ss ph te end.

(** The same envelope without windows, or without heat capacity. *)
Definition with_windowArea {T} (s : structure_t T) (a : list T) : structure_t T :=
  match s with mkStructure f1 f2 _ f4 f5 f6 f7 f8 f9 f10 f11 f12 f13 f14 f15 f16 f17 f18 f19 f20 f21 =>
    mkStructure f1 f2 a f4 f5 f6 f7 f8 f9 f10 f11 f12 f13 f14 f15 f16 f17 f18 f19 f20 f21 end.
Definition with_capacities {T} (s : structure_t T) (interior wall : T) : structure_t T :=
  match s with mkStructure f1 f2 f3 f4 f5 f6 f7 f8 f9 f10 _ _ f13 f14 f15 f16 f17 f18 f19 f20 f21 =>
    mkStructure f1 f2 f3 f4 f5 f6 f7 f8 f9 f10 interior wall f13 f14 f15 f16 f17 f18 f19 f20 f21 end.
