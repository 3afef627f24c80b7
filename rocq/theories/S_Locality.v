(** Reading one value of a result table, and two years of monthly weather that agree in a month. *)
From Coq Require Import List.
From Verif Require Import Base Num M_Monthly.
Import ListNotations.

(** The value of end use [k] in row [n]. *)
Definition cell {T} (rows : list (list T)) (n k : nat) : option T :=
  match nth_error rows n with Some row => nth_error row k | None => None end.

(** Month [m] (from 0) has the same radiation, temperatures and wind in both years. *)
Definition same_month {T} (m : nat) (w w' : mweather T) : Prop :=
  nth_error (mw_msolar w') m = nth_error (mw_msolar w) m /\
  nth_error (mw_mhdbt w') m = nth_error (mw_mhdbt w) m /\
  nth_error (mw_mhEgh w') m = nth_error (mw_mhEgh w) m /\
  nth_error (mw_mEgh w') m = nth_error (mw_mEgh w) m /\
  nth_error (mw_mdbt w') m = nth_error (mw_mdbt w) m /\
  nth_error (mw_mwind w') m = nth_error (mw_mwind w) m.
