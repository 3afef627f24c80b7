(** The number operations used by the modelled code, as a record (not a functor).
    Model functions are polymorphic in it: see DESIGN.md, "Numbers". *)
From Coq Require Import ZArith.
From Verif Require Import Base.

Class Num (T : Type) : Type := {
  lit : Z -> positive -> T;          (* decimal literal n/d of the source text *)
  nadd : T -> T -> T;
  nsub : T -> T -> T;
  nmul : T -> T -> T;
  ndiv : T -> T -> T;
  nopp : T -> T;
  nabs : T -> T;                     (* fabs, std::abs *)
  nlt : T -> T -> bool;              (* a < b, false on NaN *)
  neqb : T -> T -> bool;             (* a == b, false on NaN *)
  npow : T -> T -> T;                (* std::pow *)
  nexp : T -> T;                     (* std::exp *)
  nsin : T -> T;
  ncos : T -> T;
  nasin : T -> T;
  nacos : T -> T;
  natan2 : T -> T -> T;
  ntrunc : T -> option Z;            (* (int) x; None = undefined behaviour *)
  ndblmin : T;                       (* DBL_MIN *)
  ndblmax : T                        (* DBL_MAX *)
}.

Declare Scope num_scope.
Delimit Scope num_scope with num.
Infix "+" := nadd : num_scope.
Infix "-" := nsub : num_scope.
Infix "*" := nmul : num_scope.
Infix "/" := ndiv : num_scope.
Notation "- x" := (nopp x) : num_scope.
Notation "a <? b" := (nlt a b) : num_scope.
Notation "a =? b" := (neqb a b) : num_scope.
Notation "a >? b" := (nlt b a) (only parsing) : num_scope.

(** Integer literal / int promoted to double. *)
Definition zn {T} `{Num T} (z : Z) : T := lit z 1.

(** std::max(a,b) = (a < b) ? b : a;   std::min(a,b) = (b < a) ? b : a. *)
Definition nmax {T} `{Num T} (a b : T) : T := if nlt a b then b else a.
Definition nmin {T} `{Num T} (a b : T) : T := if nlt b a then b else a.

(** a <= b and a >= b on doubles (false on NaN). *)
Definition nle {T} `{Num T} (a b : T) : bool := nlt a b || neqb a b.

(** std::accumulate(begin, end, 0.0). *)
Definition accumulate {T} `{Num T} (l : list T) : T := fold_left nadd l (zn 0).
