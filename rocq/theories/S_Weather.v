(** Specifications for the weather summary text, paths and cache keys. *)
From Coq Require Import Ascii String ZArith.
From Verif Require Import Base Xr Text S_Text.
Open Scope char_scope.
Open Scope list_scope.

(** How numbers are written: never empty, without comma or line break. *)
Definition writes_numbers {T} (fmt : T -> text) : Prop :=
  forall x, fmt x <> [] /\ ~ In "," (fmt x) /\ ~ In newline (fmt x).

(** The fields of a list that are not empty. *)
Definition non_empty (fs : list text) : list text := filter (fun f => match f with [] => false | _ => true end) fs.

(** A path with both kinds of separator turned into the first. *)
Definition is_separator (c : ascii) : Prop := c = "/" \/ c = "\".
Inductive unix_path : text -> text -> Prop :=
| unix_nil : unix_path [] []
| unix_sep : forall c s t, is_separator c -> unix_path s t -> unix_path (c :: s) ("/" :: t)
| unix_char : forall c s t, ~ is_separator c -> unix_path s t -> unix_path (c :: s) (c :: t).

(** Coordinates that are numbers, infinities included. *)
Definition is_number (x : xr) : Prop := x <> NaN.
Definition key_numbers (k : xr * xr) : Prop := is_number (fst k) /\ is_number (snd k).
