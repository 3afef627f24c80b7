(** Strings and the standard-library string operations used by Properties.cpp,
    UserModel.cpp and EpwData.cpp. *)
From Coq Require Import Ascii String.
From Verif Require Import Base Text.
Open Scope char_scope.
Open Scope list_scope.

(** ::tolower in the "C" locale (Properties.cpp 153, 160, 168, 175, 210; UserModel.hpp
    147-157, 530-539, 606-615, 2206-2217): A-Z become a-z, every other byte is unchanged.
    Simplification: bytes >= 128, whose conversion to a negative int makes the C call
    formally undefined, are also left unchanged (what glibc does). *)
Definition tolower (c : ascii) : ascii :=
  let n := N_of_ascii c in
  if (N.leb 65 n && N.leb n 90)%bool then ascii_of_N (n + 32) else c.
Definition lower (s : text) : text := map tolower s.

(** std::string equality. *)
Fixpoint text_eqb (a b : text) : bool :=
  match a, b with
  | [], [] => true
  | x :: s, y :: t => Ascii.eqb x y && text_eqb s t
  | _, _ => false
  end.

(** std::string operator<, the order of std::map<std::string, ...>: lexicographic on
    unsigned bytes. *)
Fixpoint text_ltb (a b : text) : bool :=
  match a, b with
  | _, [] => false
  | [], _ :: _ => true
  | x :: s, y :: t =>
      if N.ltb (N_of_ascii x) (N_of_ascii y) then true
      else if N.ltb (N_of_ascii y) (N_of_ascii x) then false
      else text_ltb s t
  end.

(** Membership of a byte in a set given as a string. *)
Definition in_set (set : text) (c : ascii) : bool := existsb (Ascii.eqb c) set.

(** s.find_first_not_of(set): position of the first byte outside the set, None = npos. *)
Fixpoint find_first_not_of (set s : text) : option nat :=
  match s with
  | [] => None
  | c :: t => if in_set set c then option_map S (find_first_not_of set t) else Some 0
  end.

(** s.find_last_not_of(set). *)
Fixpoint find_last_not_of (set s : text) : option nat :=
  match s with
  | [] => None
  | c :: t =>
      match find_last_not_of set t with
      | Some i => Some (S i)
      | None => if in_set set c then None else Some 0
      end
  end.

(** s.find_first_of(c). *)
Fixpoint find_first_of (c : ascii) (s : text) : option nat :=
  match s with
  | [] => None
  | d :: t => if Ascii.eqb d c then Some 0 else option_map S (find_first_of c t)
  end.

(** s.substr(pos, n) for pos <= s.length(). *)
Definition substr (s : text) (pos n : nat) : text := firstn n (skipn pos s).

(** [while (std::getline(in, line))] (Properties.cpp 189): the lines of a stream; the part
    after the last newline counts only if it is not empty.  [cur] is the line being read. *)
Fixpoint getlines (cur s : text) : list text :=
  match s with
  | [] => match cur with [] => [] | _ => [cur] end
  | c :: t => if Ascii.eqb c newline then cur :: getlines [] t else getlines (cur ++ [c]) t
  end.

(** [while (in.good()) { std::getline(in, line); ... }] (UserModel.cpp 453-454, EpwData.cpp
    144-146): here the part after the last newline is always processed, even when empty. *)
Fixpoint goodlines (cur s : text) : list text :=
  match s with
  | [] => [cur]
  | c :: t => if Ascii.eqb c newline then cur :: goodlines [] t else goodlines (cur ++ [c]) t
  end.
