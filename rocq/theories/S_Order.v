(** Dictionary order of byte strings. *)
From Coq Require Import Ascii String NArith.
From Verif Require Import Base Text.
Open Scope char_scope.
Open Scope list_scope.

(** [a] comes before [b]: it is a proper beginning of [b], or has the smaller byte where they first differ. *)
Definition precedes (a b : text) : Prop :=
  exists p, (exists y t, a = p /\ b = p ++ y :: t) \/
            (exists x s y t, a = p ++ x :: s /\ b = p ++ y :: t /\ (N_of_ascii x < N_of_ascii y)%N).

(** No capital letter occurs in the text. *)
Definition no_capitals (a : text) : Prop :=
  forall c, In c a -> ~ (65 <= N_of_ascii c <= 90)%N.
