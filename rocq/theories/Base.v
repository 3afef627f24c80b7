(** Outcomes of modelled C++ code and small list utilities. *)
From Coq Require Export List ZArith Bool Lia.
Export ListNotations.

(** Exceptions that the modelled code throws.  [DomainErrorPtr] is the
    [throw new domain_error(..)] of Properties.cpp 196, 200, 208 and 216, which
    throws a pointer (so [catch (std::exception&)] does not catch it).  [RuntimeError] is
    boost::escaped_list_error. *)
Inductive exn := InvalidArgument | OutOfRange | DomainErrorPtr | RuntimeError.

(** A C++ call returns a value, throws, or has undefined behaviour
    (out-of-range access, null dereference, uninitialised read, bad cast). *)
Inductive outcome (A : Type) : Type :=
| Ok (a : A)
| Throw (e : exn)
| UB.
Arguments Ok {A} a.
Arguments Throw {A} e.
Arguments UB {A}.

Definition obind {A B} (x : outcome A) (f : A -> outcome B) : outcome B :=
  match x with Ok a => f a | Throw e => Throw e | UB => UB end.

Declare Scope outcome_scope.
Delimit Scope outcome_scope with outcome.
Notation "'do' x <- a ; b" := (obind a (fun x => b))
  (at level 200, x pattern, a at level 100, b at level 200) : outcome_scope.
Open Scope outcome_scope.

(** Checked read of [v[i]] : reading past the end is undefined behaviour. *)
Definition vget {A} (v : list A) (i : nat) : outcome A :=
  match nth_error v i with Some a => Ok a | None => UB end.

(** Checked write of [v[i] = x]. *)
Fixpoint upd {A} (v : list A) (i : nat) (x : A) : list A :=
  match v, i with
  | [], _ => []
  | _ :: t, O => x :: t
  | a :: t, S j => a :: upd t j x
  end.
Definition vset {A} (v : list A) (i : nat) (x : A) : outcome (list A) :=
  if Nat.ltb i (length v) then Ok (upd v i x) else UB.

(** Results of a list of computations, failing at the first failure. *)
Fixpoint omap {A B} (f : A -> outcome B) (l : list A) : outcome (list B) :=
  match l with
  | [] => Ok []
  | a :: t => do b <- f a; do bs <- omap f t; Ok (b :: bs)
  end.

(** A loop whose body may fail. *)
Fixpoint ofold {A S} (f : S -> A -> outcome S) (l : list A) (s : S) : outcome S :=
  match l with
  | [] => Ok s
  | a :: t => do s' <- f s a; ofold f t s'
  end.

(** Integers lo, lo+1, ..., lo+n-1, the values of a counting for loop. *)
Definition zrange (lo : Z) (n : Z) : list Z :=
  map (fun k => (lo + Z.of_nat k)%Z) (seq 0 (Z.to_nat n)).
