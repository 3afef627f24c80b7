(** The shipped office file without its last block, "new as unused parameters". *)
From Coq Require Import Ascii String List.
From Verif Require Import Base Text E_OfficeFile.
Import ListNotations.

Fixpoint starts (p s : text) : bool :=
  match p, s with
  | [], _ => true
  | a :: p, b :: s => Ascii.eqb a b && starts p s
  | _, _ => false
  end.
Fixpoint before (mark s : text) : text :=
  match s with
  | [] => []
  | c :: r => if starts mark s then [] else c :: before mark r
  end.
Definition shortText : text := before (tx "# new as unused parameters") officeText.
