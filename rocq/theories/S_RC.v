(** Specification of the ISO 13790 Annex C three-node network for one hour,
    written as heat balances (no solution formulas). *)
From Coq Require Import Reals.
Open Scope R_scope.

(** Conductances (W/K per m2), outdoor and supply temperature, and gains of one hour. *)
Record rc := mkRC {
  rc_ve : R;      (* ventilation: supply air <-> air node *)
  rc_is : R;      (* air node <-> surface node *)
  rc_w : R;       (* windows: outdoor <-> surface node *)
  rc_ms : R;      (* surface node <-> mass node *)
  rc_em : R;      (* opaque envelope: outdoor <-> mass node *)
  rc_C : R;       (* heat capacity of the mass, kJ/K per m2 *)
  rc_out : R;     (* outdoor temperature *)
  rc_sup : R;     (* supply air temperature *)
  rc_phi_ia : R;  (* gains to the air node *)
  rc_phi_st : R;  (* gains to the surface node *)
  rc_phi_m : R }. (* gains to the mass node *)

(** Heat balance of the three nodes over one hour (3.6 kJ = 1 Wh), with mass temperature
    going from [tm0] to [tm1], mean mass temperature (tm0+tm1)/2, surface temperature
    [ts], air temperature [ta] and plant power [plant] fed into the air node. *)
Definition rc_balance (x : rc) (plant tm0 tm1 ts ta : R) : Prop :=
  let tm := (tm0 + tm1) / 2 in
  rc_ve x * (rc_sup x - ta) + rc_is x * (ts - ta) + rc_phi_ia x + plant = 0 /\
  rc_is x * (ta - ts) + rc_w x * (rc_out x - ts) + rc_ms x * (tm - ts) + rc_phi_st x = 0 /\
  rc_C x / 3.6 * (tm1 - tm0) = rc_ms x * (ts - tm) + rc_em x * (rc_out x - tm) + rc_phi_m x.

(** A network with the usual signs. *)
Definition rc_positive (x : rc) : Prop :=
  0 < rc_ve x /\ 0 < rc_is x /\ 0 <= rc_w x /\ 0 < rc_ms x /\ 0 < rc_em x /\ 0 <= rc_C x.

(** Clamping into a band. *)
Definition clamp (lo hi x : R) : R := Rmax lo (Rmin hi x).
