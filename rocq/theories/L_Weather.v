(** Lemmas about paths, cache keys and the weather state of UserModel. *)
From Coq Require Import Ascii String ZArith Lia.
From Verif Require Import Base Num Text M_Text M_TimeFrame M_Params M_Properties M_UserModel M_Epw M_Solar M_IsoText M_Weather S_Text S_Epw S_Solar S_Weather L_Text L_Properties L_HourlyShape L_Epw L_Epw2 L_Solar L_Solar2 L_Solar3 L_Solar5 L_IsoText L_IsoText2.
Open Scope nat_scope.
Open Scope list_scope.

(** ** Paths *)
Lemma slash_sep : forall c, is_separator c -> slash c = "/"%char.
Proof. intros c [-> | ->]; reflexivity. Qed.
Lemma slash_other : forall c, ~ is_separator c -> slash c = c /\ Ascii.eqb c "/" = false.
Proof.
  intros c H. unfold is_separator in H. unfold slash. destruct (Ascii.eqb_spec c "\"); [tauto|]. destruct (Ascii.eqb_spec c "/"); [tauto|]. split; reflexivity.
Qed.
Lemma unix_map : forall s t, unix_path s t -> map slash s = t.
Proof.
  intros s t H. induction H as [|c s t H _ IH|c s t H _ IH]; [reflexivity|cbn [map]; rewrite slash_sep, IH by exact H; reflexivity|].
  cbn [map]. destruct (slash_other c H) as [-> _]. rewrite IH. reflexivity.
Qed.
Lemma unix_ex : forall s, unix_path s (map slash s).
Proof.
  induction s as [|c s IH]; [constructor|]. cbn [map]. destruct (Ascii.eqb_spec c "/") as [-> |N1]; [apply unix_sep; [left; reflexivity|exact IH]|].
  destruct (Ascii.eqb_spec c "\") as [-> |N2]; [apply unix_sep; [right; reflexivity|exact IH]|].
  assert (N : ~ is_separator c) by (intros [-> | ->]; congruence). destruct (slash_other c N) as [-> _]. apply unix_char; assumption.
Qed.
Lemma lastSeparator_plain : forall s i last, Forall (fun c => ~ is_separator c) s -> lastSeparator i last (map slash s) = last.
Proof.
  induction s as [|c s IH]; intros i last F; [reflexivity|]. inversion F; subst. cbn [map lastSeparator].
  destruct (slash_other c H1) as [-> ->]. apply IH. assumption.
Qed.
Lemma lastSeparator_app : forall d i last sep f, is_separator sep -> Forall (fun c => ~ is_separator c) f ->
  lastSeparator i last (map slash (d ++ sep :: f)) = i + length d.
Proof.
  induction d as [|c d IH]; intros i last sep f HS F.
  - cbn [app map lastSeparator]. rewrite slash_sep, Ascii.eqb_refl by exact HS. rewrite lastSeparator_plain by exact F. cbn. lia.
  - cbn [app map lastSeparator]. rewrite IH by assumption. cbn [length]. lia.
Qed.
Definition strip (rel : text) : text :=
  match rel with c :: t => if (Ascii.eqb c "/" || Ascii.eqb c "\")%char%bool then t else rel | [] => [] end.
Lemma strip_plain : forall r, (forall c t, r = c :: t -> ~ is_separator c) -> strip r = r.
Proof.
  intros [|c t] H; [reflexivity|]. specialize (H c t eq_refl). unfold strip, is_separator in *.
  destruct (Ascii.eqb_spec c "/"); [tauto|]. destruct (Ascii.eqb_spec c "\"); [tauto|]. reflexivity.
Qed.
Lemma strip_sep : forall c t, is_separator c -> strip (c :: t) = t.
Proof. intros c t [-> | ->]; reflexivity. Qed.
Lemma resolve_directory : forall d sep f rel, is_separator sep -> Forall (fun c => ~ is_separator c) f ->
  resolveFilename (d ++ sep :: f) rel = map slash (d ++ [sep]) ++ map slash (strip rel).
Proof.
  intros d sep f rel HS F. unfold resolveFilename, strip. rewrite lastSeparator_app by assumption. f_equal.
  unfold substr. cbn [skipn]. replace (d ++ sep :: f) with ((d ++ [sep]) ++ f) by (rewrite <- app_assoc; reflexivity).
  rewrite map_app. replace (0 + length d + 1) with (length (map slash (d ++ [sep]))) by (rewrite map_length, app_length; cbn; lia).
  rewrite firstn_app, firstn_all, Nat.sub_diag. cbn [firstn]. apply app_nil_r.
Qed.
Lemma resolve_bare : forall f rel, Forall (fun c => ~ is_separator c) f -> resolveFilename f rel = firstn 1 f ++ map slash (strip rel).
Proof.
  intros f rel F. unfold resolveFilename, strip. rewrite lastSeparator_plain by exact F. f_equal. unfold substr. cbn [skipn plus].
  destruct f as [|c f]; [reflexivity|]. cbn [map firstn]. inversion F; subst. destruct (slash_other c H1) as [-> _]. reflexivity.
Qed.
Lemma C50_directory_l : forall d sep f rel r D R, is_separator sep -> Forall (fun c => ~ is_separator c) f ->
  (rel = r /\ (forall c t, r = c :: t -> ~ is_separator c) \/ exists c, is_separator c /\ rel = c :: r) ->
  unix_path (d ++ [sep]) D -> unix_path r R -> resolveFilename (d ++ sep :: f) rel = D ++ R.
Proof.
  intros d sep f rel r D R HS F HR HD HRR. rewrite resolve_directory by assumption. rewrite (unix_map _ _ HD). f_equal.
  replace (strip rel) with r; [apply unix_map; exact HRR|]. destruct HR as [[-> NS]|(c&HC&->)]; [symmetry; apply strip_plain; exact NS|symmetry; apply strip_sep; exact HC].
Qed.

(** ** The summary of loaded weather *)
Section Summary.
Context {T : Type} {N : Num T}.
Variable fmt : T -> text.
Variable rd : reader T.
Hypothesis W : writes_numbers fmt.

Lemma initializeSolar_ok : forall (e : epw T) lat lon tz, ep_site e = Some (lat, lon, tz) -> year_table (ep_data e) ->
  exists frame s0 s, timeFrame = Ok frame /\ newSolar e PI_ = Ok s0 /\ calculate frame (ep_data e) s0 = Ok s /\
    initializeSolar fmt rd e = Ok (iso_result fmt rd (so_avg s)).
Proof.
  intros e lat lon tz HS HD. destruct L_Calendar.timeFrame_spec as (frame&TF&_).
  destruct (newSolar_site e PI_ lat lon tz HS) as [s0 N0]. destruct (columns _ HD) as (a&b&c&d&ee&f&g&EQ&FC).
  pose proof (calculate_ok frame s0 a b c d ee f g (timeFrame_good frame TF) (newSolar_shape _ _ _ N0) FC) as C. rewrite <- EQ in C.
  exists frame, s0, (calculated s0 a b c d ee f g). split; [exact TF|]. split; [exact N0|].
  split; [exact C|].
  unfold initializeSolar, toISOData. rewrite TF. cbn [obind]. rewrite N0. cbn [obind]. rewrite C. cbn [obind].
  destruct (round_trip fmt rd W (so_avg (calculated s0 a b c d ee f g))) as (content&E1&E2).
  - apply (calculated_shape s0 a b c d ee f g).
  - rewrite E1. cbn [obind]. exact E2.
Qed.
End Summary.
