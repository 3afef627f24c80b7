(** A year of hours as ISO 13790 trajectory: what the heating and cooling needs of every hour
    must be.  Uses only the heat balances (S_RC) and the building's network (S_Network). *)
From Coq Require Import Reals ZArith List Bool.
From Verif Require Import Xr M_Params M_Hourly S_RC S_Physical S_Network.
Import ListNotations.
Open Scope R_scope.

(** The occupancy timetable: first and last hour (0..23), first and last weekday (0..6), all included. *)
Record timetable := { tt_firstHour : Z; tt_lastHour : Z; tt_firstDay : Z; tt_lastDay : Z }.
(** The building's population fields, converted to integers by dropping the fraction. *)
Definition timetable_of (p : params_t R) (tt : timetable) : Prop :=
  Rtoint (po_hoursStart (pa_population p)) = Some (tt_firstHour tt) /\
  Rtoint (po_hoursEnd (pa_population p)) = Some (tt_lastHour tt) /\
  Rtoint (po_daysStart (pa_population p)) = Some (tt_firstDay tt) /\
  Rtoint (po_daysEnd (pa_population p)) = Some (tt_lastDay tt).

(** Hour [k] of the year (0 = first hour of day 0, which is weekday 0). *)
Definition open_hour (tt : timetable) (k : Z) : bool :=
  let h := (k mod 24)%Z in (tt_firstHour tt <=? h)%Z && (h <=? tt_lastHour tt)%Z.
Definition occupied (tt : timetable) (k : Z) : bool :=
  let d := ((k / 24) mod 7)%Z in open_hour tt k && ((tt_firstDay tt <=? d)%Z && (d <=? tt_lastDay tt)%Z).

Section Year.
Variable p : params_t R.
Variable tt : timetable.
(** Scheduled values of hour [k]. *)
Definition flow_at (k : Z) : R := if open_hour tt k then ve_supplyRate (pa_ventilation p) else 0.
Definition equip_at (k : Z) : R :=
  if occupied tt k then bu_elecApplianceOcc (pa_building p) else bu_elecApplianceUnocc (pa_building p).
Definition lights_at (k : Z) : R :=
  if occupied tt k then li_densityOcc (pa_lighting p) else li_densityUnocc (pa_lighting p).
Definition heat_at (k : Z) : R := if occupied tt k then ht_tempOcc (pa_heating p) else ht_tempUnocc (pa_heating p).
Definition cool_at (k : Z) : R := if occupied tt k then cl_tempOcc (pa_cooling p) else cl_tempUnocc (pa_cooling p).
(** The network of hour [k] under weather [w] when the air was at [ta0] one hour before. *)
Definition rc_at (k : Z) (w : weather R) (ta0 : R) : rc :=
  hour_rc p (flow_at k) (equip_at k) (lights_at k) (we_wind w) (we_temp w) (we_sol w) ta0.

(** One hour under thermostat control: the air ends at the free-floating temperature
    clamped into the set-point band, and [qh - qc] is the plant power that achieves it,
    of which only one can be non-zero. *)
Definition iso_step (x : rc) (lo hi tm0 tm1 ta1 qh qc : R) : Prop :=
  (exists free, (exists m s, rc_balance x 0 tm0 m s free) /\ ta1 = clamp lo hi free) /\
  (exists s, rc_balance x (qh - qc) tm0 tm1 s ta1) /\
  0 <= qh /\ 0 <= qc /\ (qh = 0 \/ qc = 0).

(** From hour [k] on, with mass at [tm] and air at [ta], the hours with weather [ws]
    have the (heating, cooling) needs listed. *)
Inductive iso_hours : Z -> R -> R -> list (weather R) -> list (R * R) -> Prop :=
| iso_end k tm ta ws : iso_hours k tm ta ws []
| iso_hour k tm ta w ws tm' ta' qh qc needs :
    iso_step (rc_at k w ta) (heat_at k) (cool_at k) tm tm' ta' qh qc ->
    iso_hours (k + 1) tm' ta' ws needs ->
    iso_hours k tm ta (w :: ws) ((qh, qc) :: needs).
End Year.
