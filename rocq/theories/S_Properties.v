(** What a property file means, line by line, and what a property map is. *)
From Coq Require Import Ascii String.
From Verif Require Import Base Text S_Text.
Open Scope char_scope.
Open Scope list_scope.

(** Blanks that may stand before a word, and after it (CRLF files end lines with CR). *)
Definition before_char (c : ascii) : Prop := c = blank \/ c = tab.
Definition after_char (c : ascii) : Prop := c = blank \/ c = tab \/ c = carriage.
Definition before_blanks : text -> Prop := Forall before_char.
Definition after_blanks : text -> Prop := Forall after_char.

(** A word without surrounding blanks. *)
Definition clean (w : text) : Prop :=
  (exists c r, w = c :: r /\ ~ before_char c) /\
  (exists r c, w = r ++ [c] /\ ~ after_char c).

Definition blank_line (l : text) : Prop := after_blanks l.
Definition comment_line (l : text) : Prop := exists a r, before_blanks a /\ l = a ++ "#" :: r.

(** key = value, with blanks around both. *)
Definition entry_line (l key value : text) : Prop :=
  exists a b c d,
    before_blanks a /\ after_blanks b /\ before_blanks c /\ after_blanks d /\
    clean key /\ ~ In "=" key /\ hd_error key <> Some "#" /\
    clean value /\
    l = a ++ key ++ b ++ "=" :: c ++ value ++ d.

(** The malformed lines: no '=', nothing before the first '=', or nothing after it. *)
Definition bad_line (l : text) : Prop :=
  ~ blank_line l /\ ~ comment_line l /\
  (~ In "=" l \/
   exists left right, l = left ++ "=" :: right /\ ~ In "=" left /\
     (after_blanks left \/ after_blanks right)).

(** The value the lines give to a key: that of the first line with this key. *)
Definition first_value (ls : list text) (key value : text) : Prop :=
  exists before l after key',
    ls = before ++ l :: after /\ entry_line l key' value /\ same_word key key' /\
    forall l' k' v', In l' before -> entry_line l' k' v' -> ~ same_word key k'.

(** The value given to a key by a sequence of assignments: the last one to this key. *)
Definition last_put (ops : list (text * text)) (key value : text) : Prop :=
  exists before key' after,
    ops = before ++ (key', value) :: after /\ same_word key key' /\
    forall k' v', In (k', v') after -> ~ same_word key k'.

(** A written file: for each entry, some noise lines, then [a key b = c value d]. *)
Record written := mkWritten {
  wr_noise : list text; wr_a : text; wr_b : text; wr_c : text; wr_d : text;
  wr_key : text; wr_value : text }.
Definition written_ok (w : written) : Prop :=
  Forall (fun l => no_newline l /\ (blank_line l \/ comment_line l)) (wr_noise w) /\
  before_blanks (wr_a w) /\ after_blanks (wr_b w) /\ before_blanks (wr_c w) /\ after_blanks (wr_d w) /\
  clean (wr_key w) /\ ~ In "=" (wr_key w) /\ hd_error (wr_key w) <> Some "#" /\ no_newline (wr_key w) /\
  clean (wr_value w) /\ no_newline (wr_value w).
Definition written_lines (ws : list written) : list text :=
  concat (map (fun w => wr_noise w ++
     [wr_a w ++ wr_key w ++ wr_b w ++ "=" :: wr_c w ++ wr_value w ++ wr_d w]) ws).
