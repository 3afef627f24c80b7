(** C106: numbers stored in the property map. *)
From Coq Require Import Ascii String ZArith Reals Bool.
From Flocq Require Import Core.Core IEEE754.BinarySingleNaN.
From Verif Require Import Base Text Xr Dbl M_Text M_Properties M_Decimal S_Text S_Decimal L_Text L_Decimal L_Decimal2.
Open Scope R_scope.

(** A stored number is a stored text: seen under every spelling of the key, other keys untouched. *)
Theorem C106_text : forall T (to_text : T -> text) m k v k',
  (same_word k k' -> getProperty (putPropertyDouble to_text m k v) k' = Some (to_text v)) /\
  (~ same_word k k' -> getProperty (putPropertyDouble to_text m k v) k' = getProperty m k').
Proof. exact C106_text_l. Qed.
Print Assumptions C106_text.

(** Every finite number is read back, at most a millionth away. *)
Theorem C106_close_partial : forall rd m k k' (x : double), reads_decimals rd -> same_word k k' -> is_finite x = true ->
  exists y, getPropertyAsDouble rd (putPropertyDouble toString m k x) k' = Ok (Some y) /\ is_finite y = true /\ Rabs (B2R y - B2R x) <= / 1000000.
Proof. exact C106_close_l. Qed.
Print Assumptions C106_close_partial.

(** Whole numbers of any size are read back unchanged. *)
Theorem C106_whole_partial : forall rd m k k' (x : double) z, reads_decimals rd -> same_word k k' -> is_finite x = true -> B2R x = IZR z ->
  exists y, getPropertyAsDouble rd (putPropertyDouble toString m k x) k' = Ok (Some y) /\ is_finite y = true /\ B2R y = B2R x.
Proof. exact C106_whole_l. Qed.
Print Assumptions C106_whole_partial.

(** So are the doubles of decimals with up to six places, up to a thousand million. *)
Theorem C106_six_places_partial : forall rd m k k' (x : double) n, reads_decimals rd -> same_word k k' -> is_finite x = true ->
  (Z.abs n <= 10 ^ 15)%Z -> B2R x = nearest (IZR n / 1000000) ->
  exists y, getPropertyAsDouble rd (putPropertyDouble toString m k x) k' = Ok (Some y) /\ is_finite y = true /\ B2R y = B2R x.
Proof. exact C106_six_places_l. Qed.
Print Assumptions C106_six_places_partial.

(** Not so in general: a number about a tenth of a millionth is read back as zero. *)
Theorem C106_refuted : exists x : double, is_finite x = true /\ B2R x <> 0 /\
  forall rd m k k', reads_decimals rd -> same_word k k' ->
  exists y, getPropertyAsDouble rd (putPropertyDouble toString m k x) k' = Ok (Some y) /\ B2R y = 0.
Proof. exact C106_lost_l. Qed.
Print Assumptions C106_refuted.

(** Such a reader exists, a tenth is a number with six places, and the text is what one expects. *)
Example C106_case : (exists rd, reads_decimals rd) /\
  (exists x : double, is_finite x = true /\ B2R x = nearest (IZR 100000 / 1000000) /\ B2R x <> IZR 0) /\
  same_word "WallU"%string "WALLu"%string /\
  toString (dlit (-1234567) 1000) = "-1234.567000"%string /\ toString (dlit 3 7) = "0.428571"%string.
Proof.
  split; [exists near_reader; exact near_reads|]. split; [exact tenth_ok|]. split; [apply same_word_lower; reflexivity|].
  split; vm_compute; reflexivity.
Qed.
