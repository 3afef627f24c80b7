(** Byte strings. *)
From Coq Require Import Ascii String.
From Verif Require Import Base.
Open Scope char_scope.
Open Scope list_scope.

(** A [std::string] is the list of its bytes. *)
Definition text := list ascii.

(** A source-text literal as a list of bytes. *)
Definition tx (s : string) : text := list_ascii_of_string s.
Coercion tx : string >-> text.

Definition newline : ascii := "010".
Definition carriage : ascii := "013".
Definition tab : ascii := "009".
Definition blank : ascii := " ".
