(** Lemmas about texts. *)
From Coq Require Import Ascii String.
From Verif Require Import Base Text M_Text S_Text.
Open Scope char_scope.
Open Scope list_scope.

Lemma text_eqb_eq : forall a b, text_eqb a b = true <-> a = b.
Proof.
  induction a as [|x a IH]; destruct b as [|y b]; cbn; try (split; [discriminate|discriminate]); [split; reflexivity|].
  rewrite andb_true_iff, Ascii.eqb_eq, IH. split; [intros [-> ->]; reflexivity|]. intros H; injection H; auto.
Qed.
Lemma text_eqb_refl : forall a, text_eqb a a = true.
Proof. intros a. apply text_eqb_eq. reflexivity. Qed.
Lemma text_eqb_neq : forall a b, text_eqb a b = false <-> a <> b.
Proof.
  intros a b. rewrite <- text_eqb_eq. destruct (text_eqb a b); split; intros H; try discriminate; try reflexivity.
  exfalso; apply H; reflexivity.
Qed.
Lemma text_eq_dec : forall a b : text, {a = b} + {a <> b}.
Proof. intros. destruct (text_eqb a b) eqn:E; [left; apply text_eqb_eq; auto|right; apply text_eqb_neq; auto]. Qed.

Lemma N_of_ascii_inj : forall a b, N_of_ascii a = N_of_ascii b -> a = b.
Proof. intros a b H. rewrite <- (ascii_N_embedding a), <- (ascii_N_embedding b), H. reflexivity. Qed.

Lemma text_ltb_irrefl : forall a, text_ltb a a = false.
Proof. induction a as [|x a IH]; cbn; [reflexivity|]. rewrite N.ltb_irrefl. exact IH. Qed.

Lemma text_ltb_trans : forall a b c, text_ltb a b = true -> text_ltb b c = true -> text_ltb a c = true.
Proof.
  induction a as [|x a IH]; intros [|y b] [|z c]; cbn; try discriminate; auto.
  destruct (N.ltb_spec (N_of_ascii x) (N_of_ascii y)), (N.ltb_spec (N_of_ascii y) (N_of_ascii x)),
    (N.ltb_spec (N_of_ascii y) (N_of_ascii z)), (N.ltb_spec (N_of_ascii z) (N_of_ascii y)),
    (N.ltb_spec (N_of_ascii x) (N_of_ascii z)), (N.ltb_spec (N_of_ascii z) (N_of_ascii x));
    try discriminate; try lia; auto. apply IH.
Qed.

Lemma text_ltb_total : forall a b, text_ltb a b = false -> a <> b -> text_ltb b a = true.
Proof.
  induction a as [|x a IH]; intros [|y b]; cbn; try discriminate; auto; try congruence.
  destruct (N.ltb_spec (N_of_ascii x) (N_of_ascii y)), (N.ltb_spec (N_of_ascii y) (N_of_ascii x)); try discriminate; try lia; auto.
  intros H1 H2. assert (x = y) by (apply N_of_ascii_inj; lia). subst y. apply IH; congruence.
Qed.

Lemma text_ltb_neq : forall a b, text_ltb a b = true -> a <> b.
Proof. intros a b H ->. rewrite text_ltb_irrefl in H. discriminate. Qed.
Lemma text_ltb_asym : forall a b, text_ltb a b = true -> text_ltb b a = false.
Proof.
  intros a b H. destruct (text_ltb b a) eqn:E; [|reflexivity].
  pose proof (text_ltb_trans _ _ _ H E) as K. rewrite text_ltb_irrefl in K. discriminate.
Qed.

(** * Case *)

Lemma tolower_upper : forall n, (65 <= n <= 90)%N -> tolower (ascii_of_N n) = ascii_of_N (n + 32).
Proof.
  intros n H. unfold tolower. rewrite N_ascii_embedding by lia.
  destruct (N.leb_spec 65 n), (N.leb_spec n 90); try lia. reflexivity.
Qed.
Lemma tolower_lower : forall n, (65 <= n <= 90)%N -> tolower (ascii_of_N (n + 32)) = ascii_of_N (n + 32).
Proof.
  intros n H. unfold tolower. rewrite N_ascii_embedding by lia.
  destruct (N.leb_spec 65 (n + 32)), (N.leb_spec (n + 32) 90); try lia; reflexivity.
Qed.
Lemma tolower_cases : forall c,
  (exists n, (65 <= n <= 90)%N /\ c = ascii_of_N n /\ tolower c = ascii_of_N (n + 32)) \/ tolower c = c.
Proof.
  intros c. destruct (N.leb_spec 65 (N_of_ascii c)) as [H|H]; [destruct (N.leb_spec (N_of_ascii c) 90) as [H'|H']|].
  - left. exists (N_of_ascii c). split; [lia|]. split; [symmetry; apply ascii_N_embedding|].
    rewrite <- (ascii_N_embedding c) at 1. apply tolower_upper. lia.
  - right. unfold tolower. destruct (N.leb_spec 65 (N_of_ascii c)), (N.leb_spec (N_of_ascii c) 90); try lia; reflexivity.
  - right. unfold tolower. destruct (N.leb_spec 65 (N_of_ascii c)), (N.leb_spec (N_of_ascii c) 90); try lia; reflexivity.
Qed.
Lemma tolower_idem : forall c, tolower (tolower c) = tolower c.
Proof.
  intros c. destruct (tolower_cases c) as [(n & H & -> & ->)|E]; [apply tolower_lower; exact H|].
  rewrite E. exact E.
Qed.
Lemma same_letter_lower : forall a b, same_letter a b <-> tolower a = tolower b.
Proof.
  intros a b. split.
  - intros [->|(n & H & [[-> ->]|[-> ->]])]; [reflexivity| |];
      rewrite (tolower_upper n H), (tolower_lower n H); reflexivity.
  - intros E.
    destruct (tolower_cases a) as [(n & H & Ha & Ea)|Ea], (tolower_cases b) as [(m & K & Hb & Eb)|Eb].
    + left. rewrite Ea, Eb in E. apply (f_equal N_of_ascii) in E. rewrite !N_ascii_embedding in E by lia.
      subst a b. f_equal. lia.
    + right. exists n. split; [exact H|]. left. split; [exact Ha|]. congruence.
    + right. exists m. split; [exact K|]. right. split; [exact Hb|]. congruence.
    + left. congruence.
Qed.

Lemma same_word_lower : forall a b, same_word a b <-> lower a = lower b.
Proof.
  unfold same_word, lower. induction a as [|x a IH]; intros [|y b]; cbn.
  - split; constructor.
  - split; [intros H; inversion H|discriminate].
  - split; [intros H; inversion H|discriminate].
  - split.
    + intros H; inversion H; subst. f_equal; [apply same_letter_lower; auto|apply IH; auto].
    + intros H; injection H as H1 H2. constructor; [apply same_letter_lower; auto|apply IH; auto].
Qed.
Lemma same_word_refl : forall a, same_word a a.
Proof. intros. apply same_word_lower. reflexivity. Qed.
Lemma same_word_sym : forall a b, same_word a b -> same_word b a.
Proof. intros a b. rewrite !same_word_lower. congruence. Qed.
Lemma same_word_trans : forall a b c, same_word a b -> same_word b c -> same_word a c.
Proof. intros a b c. rewrite !same_word_lower. congruence. Qed.
Lemma lower_idem : forall a, lower (lower a) = lower a.
Proof. intros. unfold lower. rewrite map_map. apply map_ext. apply tolower_idem. Qed.
Lemma same_word_dec : forall a b, same_word a b \/ ~ same_word a b.
Proof. intros a b. rewrite same_word_lower. destruct (text_eq_dec (lower a) (lower b)); auto. Qed.

(** * Lines *)

Lemma getlines_line : forall l cur s, ~ In newline l ->
  getlines cur (l ++ newline :: s) = (cur ++ l) :: getlines [] s.
Proof.
  induction l as [|c l IH]; intros cur s H.
  - cbn. rewrite app_nil_r. reflexivity.
  - cbn. destruct (Ascii.eqb_spec c newline) as [->|_]; [exfalso; apply H; left; reflexivity|].
    rewrite IH by (intros K; apply H; right; exact K). rewrite <- app_assoc. reflexivity.
Qed.
Lemma getlines_rest : forall l cur, ~ In newline l -> (cur ++ l) <> [] -> getlines cur l = [cur ++ l].
Proof.
  induction l as [|c l IH]; intros cur H N.
  - cbn. rewrite app_nil_r in *. destruct cur; [congruence|reflexivity].
  - cbn. destruct (Ascii.eqb_spec c newline) as [->|_]; [exfalso; apply H; left; reflexivity|].
    rewrite IH; [rewrite <- app_assoc; reflexivity|intros K; apply H; right; exact K|].
    rewrite <- app_assoc. exact N.
Qed.
Lemma getlines_ended : forall ls s, Forall no_newline ls -> getlines [] (ended ls ++ s) = ls ++ getlines [] s.
Proof.
  induction ls as [|l ls IH]; intros s F; [reflexivity|]. inversion F; subst.
  unfold ended. cbn [map concat]. rewrite <- !app_assoc. cbn [app]. rewrite getlines_line by assumption.
  cbn [app]. f_equal. apply IH. assumption.
Qed.
Lemma getlines_is_lines : forall content ls, is_lines content ls -> getlines [] content = ls.
Proof.
  intros content ls [F [->|(ls' & l & -> & N & ->)]].
  - rewrite <- (app_nil_r (ended ls)), getlines_ended by exact F. apply app_nil_r.
  - apply Forall_app in F as [F1 F2]. inversion F2; subst.
    rewrite getlines_ended by exact F1. f_equal. apply getlines_rest; assumption.
Qed.
Lemma is_lines_getlines_gen : forall s cur, ~ In newline cur ->
  exists ls, is_lines (cur ++ s) ls.
Proof.
  induction s as [|c s IH]; intros cur H.
  - rewrite app_nil_r. destruct cur as [|c cur].
    + exists []. split; [constructor|]. left. reflexivity.
    + exists [c :: cur]. split; [repeat constructor; exact H|]. right. exists [], (c :: cur).
      split; [reflexivity|]. split; [discriminate|reflexivity].
  - destruct (ascii_dec c newline) as [->|N].
    + destruct (IH [] (fun x => x)) as (ls & F & E). cbn [app] in E. exists (cur :: ls). split; [constructor; assumption|].
      destruct E as [->|(ls' & l & -> & NE & ->)].
      * left. unfold ended. cbn. rewrite <- app_assoc. reflexivity.
      * right. exists (cur :: ls'), l. split; [reflexivity|]. split; [exact NE|].
        unfold ended. cbn. rewrite <- !app_assoc. reflexivity.
    + destruct (IH (cur ++ [c])) as (ls & E).
      { intros K. apply in_app_or in K as [K|[K|[]]]; [exact (H K)|congruence]. }
      exists ls. rewrite <- app_assoc in E. exact E.
Qed.
Lemma lines_unique : forall content, exists! ls, is_lines content ls.
Proof.
  intros content. destruct (is_lines_getlines_gen content [] (fun x => x)) as [ls H].
  exists ls. split; [exact H|]. intros ls' H'. rewrite <- (getlines_is_lines _ _ H). apply getlines_is_lines. exact H'.
Qed.
