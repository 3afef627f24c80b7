(** Histories of a UserModel: every object a caller can hold. *)
From Coq Require Import Ascii String ZArith.
From Verif Require Import Base Num Text M_Properties M_UserModel M_Epw M_IsoText M_Weather.
Open Scope list_scope.

Section History.
Context {T : Type} {N : Num T}.
Variable fmt : T -> text.
Variable rd : reader T.

(** One call: a load with the files as they are at that moment, a block, or a setter.  A load that
    throws leaves an object behind as well. *)
Inductive call : user T -> user T -> Prop :=
| call_load : forall files f u u' r, load fmt rd files f u = (u', r) -> r <> UB -> call u u'
| call_load2 : forall files f d u u' r, load2 fmt rd files f d u = (u', r) -> r <> UB -> call u u'
| call_weather : forall files u u', loadWeather fmt rd files u = Ok u' -> call u u'
| call_weather_set : forall files u u', loadAndSetWeather fmt rd files u = Ok u' -> call u u'
| call_block : forall size values u u', loadWeatherBlock fmt rd size values u = Ok u' -> call u u'
| call_valid : forall b u, call u (set_valid b u)
| call_building : forall b u, call u (set_building b u).
Inductive calls : user T -> user T -> Prop :=
| calls_none : forall u, calls u u
| calls_more : forall u v w, calls u v -> call v w -> calls u w.
Definition reached (u : user T) : Prop := exists b, calls (newUser b) u.
(** Only blocks. *)
Inductive block_loads : user T -> user T -> Prop :=
| blocks_none : forall u, block_loads u u
| blocks_more : forall u v w size values, block_loads u v -> loadWeatherBlock fmt rd size values v = Ok w -> block_loads u w.
End History.
