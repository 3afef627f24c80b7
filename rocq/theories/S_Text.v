(** Specifications about texts, without any function of the model. *)
From Coq Require Import Ascii String.
From Verif Require Import Base Text.
Open Scope char_scope.
Open Scope list_scope.

(** The same letter up to ASCII case: equal, or an upper case letter (codes 65..90) and the
    lower case letter 32 above it. *)
Definition same_letter (a b : ascii) : Prop :=
  a = b \/ exists n, (65 <= n <= 90)%N /\
             ((a = ascii_of_N n /\ b = ascii_of_N (n + 32)) \/
              (b = ascii_of_N n /\ a = ascii_of_N (n + 32))).

(** The same word up to ASCII case. *)
Definition same_word : text -> text -> Prop := Forall2 same_letter.

(** The lines of a file: each is ended by a newline, except that the file may end with a
    non-empty unfinished line. *)
Definition no_newline (l : text) : Prop := ~ In newline l.
Definition ended (ls : list text) : text := concat (map (fun l => l ++ [newline]) ls).
Definition is_lines (content : text) (ls : list text) : Prop :=
  Forall no_newline ls /\
  (content = ended ls \/
   exists ls' l, ls = ls' ++ [l] /\ l <> [] /\ content = ended ls' ++ l).

(** Fields separated by a character. *)
Fixpoint joined (sep : ascii) (fs : list text) : text :=
  match fs with
  | [] => []
  | [f] => f
  | f :: r => f ++ sep :: joined sep r
  end.

(** A field without separator, quote or escape. *)
Definition plain (f : text) : Prop := Forall (fun c => c <> "," /\ c <> """" /\ c <> "\") f.
