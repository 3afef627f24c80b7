(** Lemmas about the property map and the property file reader. *)
From Coq Require Import Ascii String Sorted.
From Verif Require Import Base Text M_Text M_Properties S_Text S_Properties L_Text.
Open Scope char_scope.
Open Scope list_scope.

(** * The map *)

Lemma find_assign : forall m k v k',
  map_find k' (map_assign k v m) = if text_eqb k' k then Some v else map_find k' m.
Proof.
  induction m as [|[a x] m IH]; intros k v k'; [reflexivity|]. cbn.
  destruct (text_ltb k a) eqn:L; [reflexivity|].
  destruct (text_eqb k a) eqn:E.
  - apply text_eqb_eq in E. subst a. cbn. destruct (text_eqb k' k); reflexivity.
  - cbn. rewrite IH. destruct (text_eqb k' a) eqn:A; [|reflexivity].
    apply text_eqb_eq in A. subst a. destruct (text_eqb k' k) eqn:B; [|reflexivity].
    apply text_eqb_eq in B. subst. rewrite text_eqb_refl in E. discriminate.
Qed.

Definition ordered (m : props) : Prop := StronglySorted (fun a b => text_ltb a b = true) (keys m).

Lemma find_none_below : forall m k, Forall (fun a => text_ltb k a = true) (keys m) -> map_find k m = None.
Proof.
  induction m as [|[a x] m IH]; intros k F; [reflexivity|]. cbn in *. inversion F; subst.
  destruct (text_eqb k a) eqn:E; [|apply IH; assumption].
  apply text_eqb_eq in E. subst. rewrite text_ltb_irrefl in H1. discriminate.
Qed.

Lemma find_insert : forall m k v k', ordered m ->
  map_find k' (map_insert k v m) =
    match map_find k' m with Some x => Some x | None => if text_eqb k' k then Some v else None end.
Proof.
  induction m as [|[a x] m IH]; intros k v k' O; [reflexivity|]. cbn.
  unfold ordered in O. cbn in O. inversion O as [|? ? O' F]; subst.
  destruct (text_ltb k a) eqn:L.
  - cbn. destruct (text_eqb k' k) eqn:E.
    + apply text_eqb_eq in E. subst k'.
      destruct (text_eqb k a) eqn:A; [apply text_eqb_eq in A; subst; rewrite text_ltb_irrefl in L; discriminate|].
      rewrite find_none_below; [reflexivity|]. eapply Forall_impl; [|exact F].
      intros b Hb. exact (text_ltb_trans _ _ _ L Hb).
    + destruct (text_eqb k' a); [reflexivity|]. destruct (map_find k' m); reflexivity.
  - destruct (text_eqb k a) eqn:E.
    + apply text_eqb_eq in E. subst a. cbn. destruct (text_eqb k' k); [reflexivity|].
      destruct (map_find k' m); reflexivity.
    + cbn. destruct (text_eqb k' a); [reflexivity|]. apply IH. exact O'.
Qed.

Lemma keys_assign_forall : forall m k v (P : text -> Prop), P k -> Forall P (keys m) -> Forall P (keys (map_assign k v m)).
Proof.
  induction m as [|[a x] m IH]; intros k v P H F; cbn; [constructor; auto|]. cbn in F. inversion F; subst.
  destruct (text_ltb k a); [cbn; auto|]. destruct (text_eqb k a); cbn; constructor; auto.
Qed.
Lemma keys_insert_forall : forall m k v (P : text -> Prop), P k -> Forall P (keys m) -> Forall P (keys (map_insert k v m)).
Proof.
  induction m as [|[a x] m IH]; intros k v P H F; cbn; [constructor; auto|]. cbn in F. inversion F; subst.
  destruct (text_ltb k a); [cbn; auto|]. destruct (text_eqb k a); cbn; [auto|]. constructor; auto.
Qed.
Lemma ordered_assign : forall m k v, ordered m -> ordered (map_assign k v m).
Proof.
  unfold ordered. induction m as [|[a x] m IH]; intros k v O; cbn; [repeat constructor|].
  inversion O as [|? ? O' F]; subst. destruct (text_ltb k a) eqn:L.
  - cbn. constructor; [exact O|]. constructor; [exact L|]. eapply Forall_impl; [|exact F].
    intros b Hb. exact (text_ltb_trans _ _ _ L Hb).
  - destruct (text_eqb k a) eqn:E.
    + apply text_eqb_eq in E. subst a. cbn. exact O.
    + cbn. constructor; [apply IH; exact O'|]. apply keys_assign_forall; [|exact F].
      apply text_ltb_total; [exact L|]. intros ->. rewrite text_eqb_refl in E. discriminate.
Qed.
Lemma ordered_insert : forall m k v, ordered m -> ordered (map_insert k v m).
Proof.
  unfold ordered. induction m as [|[a x] m IH]; intros k v O; cbn; [repeat constructor|].
  inversion O as [|? ? O' F]; subst. destruct (text_ltb k a) eqn:L.
  - cbn. constructor; [exact O|]. constructor; [exact L|]. eapply Forall_impl; [|exact F].
    intros b Hb. exact (text_ltb_trans _ _ _ L Hb).
  - destruct (text_eqb k a) eqn:E; [exact O|].
    cbn. constructor; [apply IH; exact O'|]. apply keys_insert_forall; [|exact F].
    apply text_ltb_total; [exact L|]. intros ->. rewrite text_eqb_refl in E. discriminate.
Qed.

Lemma find_in_keys : forall m k, map_find k m <> None <-> In k (keys m).
Proof.
  induction m as [|[a x] m IH]; intros k; cbn; [split; [congruence|tauto]|].
  destruct (text_eqb k a) eqn:E.
  - apply text_eqb_eq in E. subst. split; [auto|discriminate].
  - rewrite IH. apply text_eqb_neq in E. split; [auto|]. intros [->|H]; [congruence|exact H].
Qed.
Lemma size_assign : forall m k v, ordered m ->
  size (map_assign k v m) = match map_find k m with Some _ => size m | None => S (size m) end.
Proof.
  unfold size, ordered. induction m as [|[a x] m IH]; intros k v O; [reflexivity|]. cbn.
  inversion O as [|? ? O' F]; subst. destruct (text_ltb k a) eqn:L.
  - rewrite find_none_below; [|eapply Forall_impl; [|exact F]; intros b Hb; exact (text_ltb_trans _ _ _ L Hb)].
    destruct (text_eqb k a) eqn:E; [|reflexivity]. apply text_eqb_eq in E. subst. rewrite text_ltb_irrefl in L. discriminate.
  - destruct (text_eqb k a) eqn:E; [reflexivity|]. cbn. rewrite IH by exact O'. destruct (map_find k m); reflexivity.
Qed.
Lemma size_insert : forall m k v, ordered m ->
  size (map_insert k v m) = match map_find k m with Some _ => size m | None => S (size m) end.
Proof.
  unfold size, ordered. induction m as [|[a x] m IH]; intros k v O; [reflexivity|]. cbn.
  inversion O as [|? ? O' F]; subst. destruct (text_ltb k a) eqn:L.
  - rewrite find_none_below; [|eapply Forall_impl; [|exact F]; intros b Hb; exact (text_ltb_trans _ _ _ L Hb)].
    destruct (text_eqb k a) eqn:E; [|reflexivity]. apply text_eqb_eq in E. subst. rewrite text_ltb_irrefl in L. discriminate.
  - destruct (text_eqb k a) eqn:E; [reflexivity|]. cbn. rewrite IH by exact O'. destruct (map_find k m); reflexivity.
Qed.
Lemma ordered_nodup : forall m, ordered m -> NoDup (keys m).
Proof.
  unfold ordered. intros m. generalize (keys m). induction l as [|a l IH]; intros O; [constructor|].
  inversion O as [|? ? O' F]; subst. constructor; [|apply IH; exact O'].
  intros H. rewrite Forall_forall in F. specialize (F _ H). rewrite text_ltb_irrefl in F. discriminate.
Qed.

(** * Sequences of puts *)

Definition puts (ops : list (text * text)) (m : props) : props :=
  fold_left (fun m kv => putProperty m (fst kv) (snd kv)) ops m.
Definition lowered (m : props) : Prop := Forall (fun k => lower k = k) (keys m).

Lemma puts_ordered : forall ops m, ordered m -> ordered (puts ops m).
Proof.
  induction ops as [|[k v] ops IH]; intros m O; [exact O|]. cbn. apply IH. apply ordered_assign. exact O.
Qed.
Lemma puts_lowered : forall ops m, lowered m -> lowered (puts ops m).
Proof.
  induction ops as [|[k v] ops IH]; intros m O; [exact O|]. cbn. apply IH. apply keys_assign_forall; [apply lower_idem|exact O].
Qed.

Lemma get_put : forall m k v k',
  (same_word k k' -> getProperty (putProperty m k v) k' = Some v) /\
  (~ same_word k k' -> getProperty (putProperty m k v) k' = getProperty m k').
Proof.
  intros m k v k'. unfold getProperty, putProperty. rewrite find_assign. rewrite same_word_lower.
  destruct (text_eqb (lower k') (lower k)) eqn:E.
  - apply text_eqb_eq in E. split; [reflexivity|congruence].
  - apply text_eqb_neq in E. split; [congruence|reflexivity].
Qed.

Lemma get_puts : forall ops m k,
  (exists v, last_put ops k v /\ getProperty (puts ops m) k = Some v) \/
  ((forall v, ~ last_put ops k v) /\ (forall k' v', In (k', v') ops -> ~ same_word k k') /\
   getProperty (puts ops m) k = getProperty m k).
Proof.
  intros ops. induction ops as [|[k1 v1] ops IH] using rev_ind; intros m k.
  - right. split; [intros v (b & k' & a & H & _); destruct b; discriminate|]. split; [intros ? ? []|reflexivity].
  - unfold puts. rewrite fold_left_app. cbn [fold_left fst snd]. fold (puts ops m).
    destruct (get_put (puts ops m) k1 v1 k) as [H1 H2]. destruct (same_word_dec k1 k) as [S|S].
    + left. exists v1. split; [|apply H1; exact S]. exists ops, k1, []. split; [reflexivity|].
      split; [apply same_word_sym; exact S|]. intros ? ? [].
    + destruct (IH m k) as [(v & (b & k' & a & E & W & A) & G)|(N & N' & G)].
      * left. exists v. split; [|rewrite (H2 S); exact G]. exists b, k', (a ++ [(k1, v1)]). subst ops.
        split; [rewrite <- app_assoc; reflexivity|]. split; [exact W|].
        intros k2 v2 I. apply in_app_or in I as [I|[I|[]]]; [exact (A _ _ I)|].
        injection I as <- <-. intros Q. apply S, same_word_sym. exact Q.
      * right. assert (NN : forall k' v', In (k', v') (ops ++ [(k1, v1)]) -> ~ same_word k k').
        { intros k2 v2 I. apply in_app_or in I as [I|[I|[]]]; [exact (N' _ _ I)|].
          injection I as <- <-. intros Q. apply S, same_word_sym. exact Q. }
        split; [|split; [exact NN|rewrite (H2 S); exact G]].
        intros v (b & k' & a & E & W & A). apply (NN k' v); [|exact W]. rewrite E. apply in_or_app. right. left. reflexivity.
Qed.

Lemma last_put_unique : forall ops k v v', last_put ops k v -> last_put ops k v' -> v = v'.
Proof.
  intros ops k v v' L L'. destruct (get_puts ops [] k) as [(w & H & G)|(N & _)]; [|exfalso; exact (N v L)].
  assert (U : forall x, last_put ops k x -> x = w); [|rewrite (U v L), (U v' L'); reflexivity].
  clear v v' L L' G. intros x (b & k1 & a & E & W & A). destruct H as (b' & k1' & a' & E' & W' & A').
  subst ops. assert (Hlen : forall (b b' : list (text * text)) k1 k1' x w a a',
    b ++ (k1, x) :: a = b' ++ (k1', w) :: a' -> same_word k k1 -> same_word k k1' ->
    (forall k' v', In (k', v') a -> ~ same_word k k') -> (forall k' v', In (k', v') a' -> ~ same_word k k') -> x = w).
  { clear. induction b as [|[p q] b IH]; intros [|[p' q'] b'] k1 k1' x w a a' E W W' A A'; cbn in E; injection E; intros.
    - congruence.
    - exfalso. subst. apply (A k1' w); [apply in_or_app; right; left; reflexivity|exact W'].
    - exfalso. subst. apply (A' k1 x); [apply in_or_app; right; left; reflexivity|exact W].
    - eapply IH; eauto. }
  eapply Hlen; eauto.
Qed.

Lemma C44_history_l : forall ops k v,
  getProperty (puts ops empty_props) k = Some v <-> last_put ops k v.
Proof.
  intros ops k v. destruct (get_puts ops empty_props k) as [(w & L & G)|(N & _ & G)].
  - rewrite G. split; [intros H; injection H as <-; exact L|]. intros L'. f_equal. exact (last_put_unique _ _ _ _ L L').
  - rewrite G. split; [discriminate|]. intros L. exfalso. exact (N v L).
Qed.

Lemma contains_get : forall m k, contains m k = true <-> exists v, getProperty m k = Some v.
Proof.
  intros m k. unfold contains, getProperty. destruct (map_find (lower k) m) as [v|].
  - split; [exists v; reflexivity|reflexivity].
  - split; [discriminate|]. intros [v H]; discriminate.
Qed.

Lemma ordered_empty : ordered empty_props.
Proof. constructor. Qed.
Lemma lowered_empty : lowered empty_props.
Proof. constructor. Qed.

Lemma keys_complete : forall m, ordered m -> lowered m ->
  NoDup (keys m) /\ StronglySorted (fun a b => text_ltb a b = true) (keys m) /\
  (forall k, contains m k = true <-> exists k', In k' (keys m) /\ same_word k k') /\
  List.length (keys m) = size m.
Proof.
  intros m O L. split; [apply ordered_nodup; exact O|]. split; [exact O|]. split; [|apply map_length].
  intros k. assert (Hc : contains m k = true <-> map_find (lower k) m <> None).
  { unfold contains. destruct (map_find (lower k) m); split; congruence. }
  rewrite Hc, find_in_keys. split.
  - intros H. exists (lower k). split; [exact H|]. apply same_word_lower. symmetry. apply lower_idem.
  - intros (k' & I & W). apply same_word_lower in W. rewrite W.
    unfold lowered in L. rewrite Forall_forall in L. rewrite (L _ I). exact I.
Qed.

Lemma put_size : forall m k v, ordered m ->
  size (putProperty m k v) = (size m + if contains m k then 0 else 1)%nat.
Proof.
  intros m k v O. unfold putProperty. rewrite size_assign by exact O. unfold contains.
  destruct (map_find (lower k) m); lia.
Qed.

(** * Trimming *)

Lemma in_before : forall c, in_set [blank; tab] c = true <-> before_char c.
Proof.
  intros c. unfold in_set, before_char. cbn. rewrite !orb_true_iff, !Ascii.eqb_eq. intuition congruence.
Qed.
Lemma in_after : forall c, in_set [blank; tab; carriage] c = true <-> after_char c.
Proof.
  intros c. unfold in_set, after_char. cbn. rewrite !orb_true_iff, !Ascii.eqb_eq. intuition congruence.
Qed.
Lemma before_after : forall c, before_char c -> after_char c.
Proof. intros c [H|H]; [left|right; left]; exact H. Qed.
Lemma before_dec : forall c, before_char c \/ ~ before_char c.
Proof. intros c. rewrite <- in_before. destruct (in_set [blank; tab] c); [left|right]; congruence. Qed.
Lemma after_dec : forall c, after_char c \/ ~ after_char c.
Proof. intros c. rewrite <- in_after. destruct (in_set [blank; tab; carriage] c); [left|right]; congruence. Qed.

Lemma last_not_all : forall set s, (forall c, In c s -> in_set set c = true) -> find_last_not_of set s = None.
Proof.
  induction s as [|c s IH]; intros H; [reflexivity|]. cbn. rewrite IH by (intros; apply H; right; assumption).
  rewrite (H c) by (left; reflexivity). reflexivity.
Qed.
Lemma last_not_app : forall set a c d, in_set set c = false -> (forall x, In x d -> in_set set x = true) ->
  find_last_not_of set (a ++ c :: d) = Some (List.length a).
Proof.
  induction a as [|x a IH]; intros c d H F; cbn.
  - rewrite last_not_all by exact F. rewrite H. reflexivity.
  - rewrite (IH c d H F). reflexivity.
Qed.
Lemma first_not_app : forall set a c d, (forall x, In x a -> in_set set x = true) -> in_set set c = false ->
  find_first_not_of set (a ++ c :: d) = Some (List.length a).
Proof.
  induction a as [|x a IH]; intros c d F H; cbn.
  - rewrite H. reflexivity.
  - rewrite (F x) by (left; reflexivity). rewrite IH; auto. intros; apply F; right; assumption.
Qed.

Lemma trim_blank : forall s, after_blanks s -> str_trim s = [].
Proof.
  intros s H. unfold str_trim. rewrite last_not_all; [reflexivity|].
  intros c I. apply in_after. unfold after_blanks in H. rewrite Forall_forall in H. apply H. exact I.
Qed.

Lemma trim_word : forall a w d, before_blanks a -> after_blanks d -> clean w -> str_trim (a ++ w ++ d) = w.
Proof.
  intros a w d A D ((c & r & E & C) & (r' & c' & E' & C')). unfold str_trim.
  assert (L : find_last_not_of [blank; tab; carriage] (a ++ w ++ d) = Some (List.length (a ++ r'))).
  { rewrite E'. rewrite <- app_assoc. cbn [app]. rewrite app_assoc. apply last_not_app.
    - destruct (in_set _ c') eqn:X; [|reflexivity]. apply in_after in X. contradiction.
    - intros x I. apply in_after. unfold after_blanks in D. rewrite Forall_forall in D. apply D. exact I. }
  rewrite L.
  assert (F : firstn (S (List.length (a ++ r'))) (a ++ w ++ d) = a ++ w).
  { rewrite app_assoc. replace (S (List.length (a ++ r'))) with (List.length (a ++ w) + 0)%nat.
    - rewrite firstn_app_2. cbn. apply app_nil_r.
    - rewrite E', !app_length. cbn. lia. }
  rewrite F.
  assert (G : find_first_not_of [blank; tab] (a ++ w) = Some (List.length a)).
  { rewrite E. apply first_not_app.
    - intros x I. apply in_before. unfold before_blanks in A. rewrite Forall_forall in A. apply A. exact I.
    - destruct (in_set _ c) eqn:X; [|reflexivity]. apply in_before in X. contradiction. }
  rewrite G. rewrite skipn_app, skipn_all, Nat.sub_diag. reflexivity.
Qed.

(** Every text is blank, or a clean word with blanks around it. *)
Lemma split_front : forall s, (exists a c r, before_blanks a /\ ~ before_char c /\ s = a ++ c :: r) \/ before_blanks s.
Proof.
  induction s as [|c s IH]; [right; constructor|]. destruct (before_dec c) as [B|B].
  - destruct IH as [(a & c' & r & H1 & H2 & ->)|H].
    + left. exists (c :: a), c', r. split; [constructor; assumption|]. split; [exact H2|reflexivity].
    + right. constructor; assumption.
  - left. exists [], c, s. split; [constructor|]. split; [exact B|reflexivity].
Qed.
Lemma split_back : forall s, (exists r c d, after_blanks d /\ ~ after_char c /\ s = r ++ c :: d) \/ after_blanks s.
Proof.
  induction s as [|c s IH] using rev_ind; [right; constructor|]. destruct (after_dec c) as [B|B].
  - destruct IH as [(r & c' & d & H1 & H2 & ->)|H].
    + left. exists r, c', (d ++ [c]). split; [apply Forall_app; split; [exact H1|constructor; [exact B|constructor]]|].
      split; [exact H2|]. rewrite <- app_assoc. reflexivity.
    + right. apply Forall_app. split; [exact H|constructor; [exact B|constructor]].
  - left. exists s, c, []. split; [constructor|]. split; [exact B|reflexivity].
Qed.
Lemma word_or_blank : forall s,
  after_blanks s \/ exists a w d, before_blanks a /\ after_blanks d /\ clean w /\ s = a ++ w ++ d.
Proof.
  intros s. destruct (split_back s) as [(r & c & d & D & C & ->)|H]; [|left; exact H]. right.
  destruct (split_front (r ++ [c])) as [(a & c' & r' & A & C' & E)|H].
  - exists a, (c' :: r'), d. split; [exact A|]. split; [exact D|]. split.
    + split; [exists c', r'; auto|].
      destruct (exists_last (l := c' :: r')) as (r2 & c2 & E2); [discriminate|].
      exists r2, c2. split; [exact E2|]. rewrite E2, app_assoc in E. apply app_inj_tail in E as [_ <-]. exact C.
    + rewrite app_assoc, <- E, <- app_assoc. reflexivity.
  - exfalso. apply Forall_app in H as [_ H]. inversion H; subst. apply C, before_after. assumption.
Qed.

Lemma clean_not_blank : forall w, clean w -> ~ after_blanks w.
Proof. intros w (_ & (r & c & -> & C)) H. apply Forall_app in H as [_ H]. inversion H; subst. contradiction. Qed.
Lemma clean_nonempty : forall w, clean w -> w <> [].
Proof. intros w ((c & r & -> & _) & _). discriminate. Qed.

Lemma trim_cases : forall s,
  (after_blanks s /\ str_trim s = []) \/
  (exists a d, before_blanks a /\ after_blanks d /\ clean (str_trim s) /\ s = a ++ str_trim s ++ d).
Proof.
  intros s. destruct (word_or_blank s) as [H|(a & w & d & A & D & C & ->)].
  - left. split; [exact H|apply trim_blank; exact H].
  - right. rewrite trim_word by assumption. exists a, d. auto.
Qed.

(** * One line *)

Lemma find_eq_none : forall s c, find_first_of c s = None <-> ~ In c s.
Proof.
  induction s as [|d s IH]; intros c; cbn; [split; [tauto|reflexivity]|].
  destruct (Ascii.eqb_spec d c) as [->|N].
  - split; [discriminate|]. intros H; exfalso; apply H; left; reflexivity.
  - specialize (IH c). destruct (find_first_of c s); cbn.
    + split; [discriminate|]. intros H. assert (~ In c s) by tauto. apply IH in H0. discriminate.
    + split; [|reflexivity]. intros _ [->|K]; [congruence|]. apply (proj1 IH eq_refl). exact K.
Qed.
Lemma find_eq_split : forall s1 s2 c, ~ In c s1 -> find_first_of c (s1 ++ c :: s2) = Some (List.length s1).
Proof.
  induction s1 as [|d s1 IH]; intros s2 c H; cbn; [rewrite Ascii.eqb_refl; reflexivity|].
  destruct (Ascii.eqb_spec d c) as [->|N]; [exfalso; apply H; left; reflexivity|].
  rewrite IH; [reflexivity|]. intros K; apply H; right; exact K.
Qed.
Lemma find_eq_some : forall s c n, find_first_of c s = Some n ->
  exists s1 s2, s = s1 ++ c :: s2 /\ ~ In c s1 /\ List.length s1 = n.
Proof.
  induction s as [|d s IH]; intros c n; cbn; [discriminate|].
  destruct (Ascii.eqb_spec d c) as [->|N].
  - intros H; injection H as <-. exists [], s. auto.
  - destruct (find_first_of c s) as [m|] eqn:E; [|discriminate]. intros H; injection H as <-.
    destruct (IH c m E) as (s1 & s2 & -> & F & L). exists (d :: s1), s2. split; [reflexivity|].
    split; [intros [->|K]; [congruence|exact (F K)]|cbn; lia].
Qed.
Lemma substr_split : forall s1 c s2,
  substr (s1 ++ c :: s2) 0 (List.length s1) = s1 /\
  substr (s1 ++ c :: s2) (List.length s1 + 1) (List.length (s1 ++ c :: s2)) = s2.
Proof.
  intros s1 c s2. unfold substr. split.
  - cbn [skipn]. rewrite firstn_app, firstn_all, Nat.sub_diag. cbn. apply app_nil_r.
  - rewrite skipn_app. replace (List.length s1 + 1 - List.length s1)%nat with 1%nat by lia.
    rewrite skipn_all2 by lia. cbn [app skipn]. rewrite firstn_all2; [reflexivity|]. rewrite app_length; cbn; lia.
Qed.

Lemma readLine_blank : forall m l, blank_line l -> readLine m l = Ok m.
Proof. intros m l H. unfold readLine. rewrite trim_blank by exact H. reflexivity. Qed.

Lemma not_after_hash : ~ after_char "#".
Proof. intros [H|[H|H]]; discriminate. Qed.
Lemma not_before_hash : ~ before_char "#".
Proof. intros [H|H]; discriminate. Qed.
Lemma not_after_eq : ~ after_char "=".
Proof. intros [H|[H|H]]; discriminate. Qed.
Lemma not_before_eq : ~ before_char "=".
Proof. intros [H|H]; discriminate. Qed.

(** The trimmed line starts with what follows the leading blanks. *)
Lemma trim_front : forall a c r, before_blanks a -> ~ after_char c -> exists r', str_trim (a ++ c :: r) = c :: r'.
Proof.
  intros a c r A C. destruct (split_back (c :: r)) as [(s & x & d & D & X & E)|H].
  - destruct s as [|c0 s].
    + cbn in E. injection E as -> ->. exists [].
      replace (a ++ x :: d) with (a ++ [x] ++ d) by reflexivity. apply trim_word; auto.
      split; [exists x, []; split; auto|exists [], x; auto]. intros K; apply C, before_after; exact K.
    + cbn in E. injection E as <- ->. exists (s ++ [x]).
      replace (a ++ c :: s ++ x :: d) with (a ++ (c :: s ++ [x]) ++ d) by (cbn; rewrite <- app_assoc; reflexivity).
      apply trim_word; auto. split; [exists c, (s ++ [x])|exists (c :: s), x]; auto. split; auto.
      intros K; apply C, before_after; exact K.
  - inversion H; subst. contradiction.
Qed.

Lemma readLine_comment : forall m l, comment_line l -> readLine m l = Ok m.
Proof.
  intros m l (a & r & A & ->). unfold readLine.
  destruct (trim_front a "#" r A not_after_hash) as [r' ->]. reflexivity.
Qed.

Lemma readLine_entry : forall m l k v, entry_line l k v -> readLine m l = Ok (map_insert (lower k) v m).
Proof.
  intros m l k v (a & b & c & d & A & B & C & D & K & NE & NH & V & ->). unfold readLine.
  assert (E : str_trim (a ++ k ++ b ++ "=" :: c ++ v ++ d) = k ++ b ++ "=" :: c ++ v).
  { replace (a ++ k ++ b ++ "=" :: c ++ v ++ d) with (a ++ (k ++ b ++ "=" :: c ++ v) ++ d)
      by (repeat (rewrite <- app_assoc; cbn [app]); reflexivity).
    apply trim_word; auto. destruct K as ((x & r & -> & X) & _), V as (_ & (s & y & -> & Y)). split.
    - exists x, (r ++ b ++ "=" :: c ++ s ++ [y]). split; [reflexivity|exact X].
    - exists ((x :: r) ++ b ++ "=" :: c ++ s), y. split; [|exact Y].
      repeat (rewrite <- app_assoc; cbn [app]). reflexivity. }
  rewrite E. pose proof K as ((x & r & Kx & X) & _).
  assert (F : exists t, k ++ b ++ "=" :: c ++ v = x :: t) by (rewrite Kx; eexists; reflexivity).
  destruct F as [t F]. rewrite F at 1.
  destruct (Ascii.eqb_spec x "#") as [->|Nx]; [exfalso; apply NH; rewrite Kx; reflexivity|].
  assert (P : find_first_of "=" (k ++ b ++ "=" :: c ++ v) = Some (List.length (k ++ b))).
  { rewrite app_assoc. apply find_eq_split. intros I. apply in_app_or in I as [I|I]; [exact (NE I)|].
    unfold after_blanks in B. rewrite Forall_forall in B. exact (not_after_eq (B _ I)). }
  rewrite P. destruct (substr_split (k ++ b) "=" (c ++ v)) as [S1 S2]. rewrite <- app_assoc in S1, S2.
  rewrite S1, S2. assert (T1 : str_trim (k ++ b) = k) by (apply (trim_word [] k b); [constructor|exact B|exact K]). rewrite T1.
  replace (c ++ v) with (c ++ v ++ []) by (rewrite app_nil_r; reflexivity).
  rewrite (trim_word c v []) by (auto; constructor).
  rewrite Kx. destruct V as ((y & s & -> & _) & _). reflexivity.
Qed.

Lemma blank_dec : forall l, after_blanks l \/ ~ after_blanks l.
Proof.
  intros l. destruct (word_or_blank l) as [H|(a & w & d & _ & _ & C & ->)]; [left; exact H|right].
  intros H. apply Forall_app in H as [_ H]. apply Forall_app in H as [H _]. exact (clean_not_blank _ C H).
Qed.

(** A line that is neither blank nor a comment: where the trimmed text comes from. *)
Lemma readLine_throws : forall m l, readLine m l = Throw DomainErrorPtr -> bad_line l.
Proof.
  intros m l H. unfold readLine in H. destruct (trim_cases l) as [[B E]|(a & d & A & D & C & E)].
  { rewrite E in H. discriminate. }
  assert (Nb : ~ blank_line l).
  { intros K. rewrite E in K. apply Forall_app in K as [_ K]. apply Forall_app in K as [K _]. exact (clean_not_blank _ C K). }
  assert (Nc : ~ comment_line l).
  { intros K. pose proof (readLine_comment m l K) as R. unfold readLine in R. rewrite H in R. discriminate. }
  split; [exact Nb|]. split; [exact Nc|].
  remember (str_trim l) as w. destruct w as [|x r]; [discriminate|].
  destruct (Ascii.eqb x "#"); [discriminate|].
  destruct (find_first_of "=" (x :: r)) as [pos|] eqn:P.
  - right. apply find_eq_some in P as (s1 & s2 & P & N & L). rewrite P in H. rewrite <- L in H.
    destruct (substr_split s1 "=" s2) as [S1 S2]. rewrite S1, S2 in H.
    exists (a ++ s1), (s2 ++ d). split; [rewrite E, P, <- !app_assoc; reflexivity|]. split.
    { intros I. apply in_app_or in I as [I|I]; [|exact (N I)].
      unfold before_blanks in A. rewrite Forall_forall in A. exact (not_before_eq (A _ I)). }
    destruct (trim_cases s1) as [[B1 E1]|(a1 & d1 & _ & _ & C1 & _)].
    + left. apply Forall_app. split; [|exact B1]. eapply Forall_impl; [|exact A]. exact before_after.
    + destruct (trim_cases s2) as [[B2 E2]|(a2 & d2 & _ & _ & C2 & _)].
      * right. apply Forall_app. split; assumption.
      * exfalso. apply clean_nonempty in C1, C2. destruct (str_trim s1); [congruence|]. destruct (str_trim s2); [congruence|discriminate].
  - left. apply find_eq_none in P. rewrite E. intros I. apply in_app_or in I as [I|I].
    + unfold before_blanks in A. rewrite Forall_forall in A. exact (not_before_eq (A _ I)).
    + apply in_app_or in I as [I|I]; [exact (P I)|].
      unfold after_blanks in D. rewrite Forall_forall in D. exact (not_after_eq (D _ I)).
Qed.

Lemma readLine_ok : forall m l m', readLine m l = Ok m' ->
  (blank_line l \/ comment_line l) /\ m' = m \/ exists k v, entry_line l k v /\ m' = map_insert (lower k) v m.
Proof.
  intros m l m' H. destruct (trim_cases l) as [[B E]|(a & d & A & D & C & E)].
  { left. split; [left; exact B|]. rewrite readLine_blank in H by exact B. congruence. }
  unfold readLine in H. remember (str_trim l) as w. destruct w as [|x r]; [exfalso; exact (clean_nonempty _ C eq_refl)|].
  destruct (Ascii.eqb_spec x "#") as [->|Nx].
  { left. split; [|congruence]. right. exists a, (r ++ d). split; [exact A|]. rewrite E. reflexivity. }
  destruct (find_first_of "=" (x :: r)) as [pos|] eqn:P; [|discriminate].
  apply find_eq_some in P as (s1 & s2 & P & N & L). rewrite P in H. rewrite <- L in H.
  destruct (substr_split s1 "=" s2) as [S1 S2]. rewrite S1, S2 in H. right.
  destruct (trim_cases s1) as [[B1 E1]|(a1 & d1 & A1 & D1 & C1 & E1)]; [rewrite E1 in H; discriminate|].
  destruct (trim_cases s2) as [[B2 E2]|(a2 & d2 & A2 & D2 & C2 & E2)]; [rewrite E2 in H; destruct (str_trim s1); discriminate|].
  exists (str_trim s1), (str_trim s2). split.
  - exists (a ++ a1), d1, a2, (d2 ++ d). split; [apply Forall_app; auto|]. split; [exact D1|]. split; [exact A2|].
    split; [apply Forall_app; auto|]. split; [exact C1|].
    split. { intros I. apply N. rewrite E1. apply in_or_app. right. apply in_or_app. left. exact I. }
    split.
    { assert (a1 = []).
      { destruct a1 as [|y a1]; [reflexivity|]. exfalso. destruct C as ((y' & r' & F & Y) & _).
        rewrite P, E1 in F. injection F as <- _. inversion A1; subst. contradiction. }
      subst a1. rewrite E1 in P. cbn [app] in P. pose proof C1 as ((y & q & F & _) & _). rewrite F in P |- *.
      injection P as <- _. cbn. congruence. }
    split; [exact C2|]. rewrite E, P. rewrite E1 at 1. rewrite E2 at 1. repeat (rewrite <- app_assoc; cbn [app]). reflexivity.
  - apply clean_nonempty in C1, C2. destruct (str_trim s1); [congruence|]. destruct (str_trim s2); [congruence|].
    injection H as <-. reflexivity.
Qed.

Lemma readLine_total : forall m l, readLine m l = Throw DomainErrorPtr \/ exists m', readLine m l = Ok m'.
Proof.
  intros m l. unfold readLine. destruct (str_trim l) as [|x r]; [eauto|]. destruct (Ascii.eqb x "#"); [eauto|].
  destruct (find_first_of "=" (x :: r)); [|eauto]. destruct (str_trim (substr _ 0 _)); [eauto|].
  destruct (str_trim (substr _ _ _)); eauto.
Qed.

Lemma bad_not_entry : forall l k v, bad_line l -> ~ entry_line l k v.
Proof.
  intros l k v (_ & _ & H) (a & b & c & d & A & B & C & D & K & NE & _ & V & E). destruct H as [H|(s1 & s2 & F & N & H)].
  - apply H. rewrite E. apply in_or_app. right. apply in_or_app. right. apply in_or_app. right. left. reflexivity.
  - assert (U : forall (u u' : text) w w', ~ In "=" u -> ~ In "=" u' -> u ++ "=" :: w = u' ++ "=" :: w' -> u = u' /\ w = w').
    { clear. induction u as [|x u IH]; intros [|y u'] w w' N N' E; cbn in E; injection E; intros; subst.
      - auto.
      - exfalso. apply N'. left. reflexivity.
      - exfalso. apply N. left. reflexivity.
      - destruct (IH u' w w') as [-> ->]; auto; [intros I; apply N; right; exact I|intros I; apply N'; right; exact I]. }
    subst l. replace (a ++ k ++ b ++ "=" :: c ++ v ++ d) with ((a ++ k ++ b) ++ "=" :: (c ++ v ++ d)) in E
      by (rewrite <- !app_assoc; reflexivity).
    apply U in E as [-> ->]; [|exact N|].
    + destruct H as [H|H]; apply Forall_app in H as [_ H]; apply Forall_app in H as [H _];
        [exact (clean_not_blank _ K H)|exact (clean_not_blank _ V H)].
    + intros I. apply in_app_or in I as [I|I].
      { unfold before_blanks in A. rewrite Forall_forall in A. exact (not_before_eq (A _ I)). }
      apply in_app_or in I as [I|I]; [exact (NE I)|].
      unfold after_blanks in B. rewrite Forall_forall in B. exact (not_after_eq (B _ I)).
Qed.

Lemma readLine_bad : forall m l, bad_line l -> readLine m l = Throw DomainErrorPtr.
Proof.
  intros m l H. destruct (readLine_total m l) as [E|[m' E]]; [exact E|].
  destruct (readLine_ok _ _ _ E) as [[[K|K] _]|(k & v & K & _)].
  - destruct H as (H & _). contradiction.
  - destruct H as (_ & H & _). contradiction.
  - exfalso. exact (bad_not_entry _ _ _ H K).
Qed.

(** The three kinds of lines exclude each other. *)
Lemma entry_line_unique : forall l k v k' v', entry_line l k v -> entry_line l k' v' -> lower k = lower k' /\ v = v'.
Proof.
  intros l k v k' v' H H'. pose proof (readLine_entry [] _ _ _ H) as E. pose proof (readLine_entry [] _ _ _ H') as E'.
  rewrite E in E'. cbn in E'. injection E' as E1 E2. auto.
Qed.
Lemma noise_not_entry : forall l k v, blank_line l \/ comment_line l -> ~ entry_line l k v.
Proof.
  intros l k v H K. pose proof (readLine_entry [] _ _ _ K) as E.
  destruct H as [H|H]; [rewrite readLine_blank in E by exact H|rewrite readLine_comment in E by exact H]; discriminate.
Qed.

(** * The file *)

Lemma first_value_cons_hit : forall l ls k k' v, entry_line l k' v -> same_word k k' -> first_value (l :: ls) k v.
Proof.
  intros l ls k k' v E W. exists [], l, ls, k'. split; [reflexivity|]. split; [exact E|]. split; [exact W|]. intros ? ? ? [].
Qed.
Lemma first_value_cons_miss : forall l ls k v, (forall k' v', entry_line l k' v' -> ~ same_word k k') ->
  (first_value (l :: ls) k v <-> first_value ls k v).
Proof.
  intros l ls k v M. split.
  - intros (b & l' & a & k' & E & L & W & A). destruct b as [|l0 b]; cbn in E; injection E as <- ->.
    + exfalso. exact (M _ _ L W).
    + exists b, l', a, k'. split; [reflexivity|]. split; [exact L|]. split; [exact W|]. intros; eapply A; eauto. right; assumption.
  - intros (b & l' & a & k' & -> & L & W & A). exists (l :: b), l', a, k'. split; [reflexivity|]. split; [exact L|].
    split; [exact W|]. intros l2 k2 v2 [<-|I] L2; [exact (M _ _ L2)|exact (A _ _ _ I L2)].
Qed.
Lemma first_value_cons_inv : forall l ls k k' v v', entry_line l k' v' -> same_word k k' -> first_value (l :: ls) k v -> v = v'.
Proof.
  intros l ls k k' v v' E W (b & l' & a & k2 & F & L & W2 & A). destruct b as [|l0 b]; cbn in F; injection F as <- ->.
  - exact (proj2 (entry_line_unique _ _ _ _ _ L E)).
  - exfalso. exact (A _ _ _ (or_introl eq_refl) E W).
Qed.

Lemma read_first : forall ls m m', ordered m -> ofold readLine ls m = Ok m' ->
  ordered m' /\ forall k v, getProperty m' k = Some v <->
    match getProperty m k with Some v0 => v = v0 | None => first_value ls k v end.
Proof.
  induction ls as [|l ls IH]; intros m m' O H.
  - cbn in H. injection H as <-. split; [exact O|]. intros k v. destruct (getProperty m k) as [v0|].
    + split; [intros E; injection E; auto|intros ->; reflexivity].
    + split; [discriminate|]. intros (b & ? & ? & ? & E & _). destruct b; discriminate.
  - cbn in H. destruct (readLine m l) as [m1| |] eqn:R; try discriminate. cbn in H.
    destruct (readLine_ok _ _ _ R) as [[NB ->]|(k1 & v1 & E1 & ->)].
    + destruct (IH m m' O H) as [O' G]. split; [exact O'|]. intros k v. rewrite G.
      destruct (getProperty m k); [tauto|]. symmetry. apply first_value_cons_miss.
      intros k' v' K. exfalso. exact (noise_not_entry _ _ _ NB K).
    + destruct (IH _ m' (ordered_insert m (lower k1) v1 O) H) as [O' G]. split; [exact O'|]. intros k v. rewrite G.
      unfold getProperty. rewrite find_insert by exact O. destruct (map_find (lower k) m) as [v0|]; [tauto|].
      destruct (text_eqb (lower k) (lower k1)) eqn:Q.
      * apply text_eqb_eq in Q. apply same_word_lower in Q. split.
        -- intros ->. exact (first_value_cons_hit _ _ _ _ _ E1 Q).
        -- exact (first_value_cons_inv _ _ _ _ _ _ E1 Q).
      * apply text_eqb_neq in Q. symmetry. apply first_value_cons_miss. intros k' v' K W.
        apply same_word_lower in W. destruct (entry_line_unique _ _ _ _ _ E1 K) as [L _]. congruence.
Qed.

Lemma ofold_app : forall A S (f : S -> A -> outcome S) l1 l2 s, ofold f (l1 ++ l2) s = obind (ofold f l1 s) (ofold f l2).
Proof. induction l1 as [|a l1 IH]; intros l2 s; cbn; [reflexivity|]. destruct (f s a); cbn; auto. Qed.

Lemma C45_file_l : forall content ls m, is_lines content ls -> propertiesOf (Some content) = Ok m ->
  forall k v, getProperty m k = Some v <-> first_value ls k v.
Proof.
  intros content ls m L H k v. unfold propertiesOf, readFile in H. rewrite (getlines_is_lines _ _ L) in H.
  destruct (read_first ls empty_props m ordered_empty H) as [_ G]. apply G.
Qed.
Lemma C45_two_l : forall building defaults lb ld m,
  is_lines building lb -> is_lines defaults ld -> propertiesOf2 (Some building) (Some defaults) = Ok m ->
  forall k v, getProperty m k = Some v <-> first_value (lb ++ ld) k v.
Proof.
  intros b d lb ld m Lb Ld H k v. unfold propertiesOf2, readFile in H.
  rewrite (getlines_is_lines _ _ Lb), (getlines_is_lines _ _ Ld) in H. rewrite <- ofold_app in H.
  destruct (read_first (lb ++ ld) empty_props m ordered_empty H) as [_ G]. apply G.
Qed.

Lemma C45_noise_l : forall c c' before n after, (blank_line n \/ comment_line n) ->
  is_lines c (before ++ n :: after) -> is_lines c' (before ++ after) ->
  propertiesOf (Some c) = propertiesOf (Some c').
Proof.
  intros c c' b n a N L L'. unfold propertiesOf, readFile.
  rewrite (getlines_is_lines _ _ L), (getlines_is_lines _ _ L'), !ofold_app.
  destruct (ofold readLine b empty_props) as [m| |]; [|reflexivity|reflexivity]. cbn.
  destruct N as [N|N]; [rewrite readLine_blank by exact N|rewrite readLine_comment by exact N]; reflexivity.
Qed.

Lemma read_bad : forall ls m, Exists bad_line ls -> ofold readLine ls m = Throw DomainErrorPtr.
Proof.
  induction ls as [|l ls IH]; intros m H; [inversion H|]. cbn. inversion H; subst.
  - rewrite readLine_bad by assumption. reflexivity.
  - destruct (readLine_total m l) as [->|[m' ->]]; [reflexivity|]. cbn. apply IH. assumption.
Qed.
Lemma read_good : forall ls m, Forall (fun l => ~ bad_line l) ls -> exists m', ofold readLine ls m = Ok m'.
Proof.
  induction ls as [|l ls IH]; intros m H; [exists m; reflexivity|]. cbn. inversion H; subst.
  destruct (readLine_total m l) as [E|[m' ->]].
  - exfalso. apply H2. exact (readLine_throws _ _ E).
  - cbn. apply IH. assumption.
Qed.

Lemma C46_one_l : forall content ls, is_lines content ls ->
  (Exists bad_line ls -> propertiesOf (Some content) = Throw DomainErrorPtr) /\
  (Forall (fun l => ~ bad_line l) ls -> exists m, propertiesOf (Some content) = Ok m).
Proof.
  intros content ls L. unfold propertiesOf, readFile. rewrite (getlines_is_lines _ _ L).
  split; [apply read_bad|apply read_good].
Qed.
Lemma C46_two_l : forall building defaults lb ld, is_lines building lb -> is_lines defaults ld ->
  (Exists bad_line (lb ++ ld) -> propertiesOf2 (Some building) (Some defaults) = Throw DomainErrorPtr) /\
  (Forall (fun l => ~ bad_line l) (lb ++ ld) -> exists m, propertiesOf2 (Some building) (Some defaults) = Ok m).
Proof.
  intros b d lb ld Lb Ld. unfold propertiesOf2, readFile.
  rewrite (getlines_is_lines _ _ Lb), (getlines_is_lines _ _ Ld), <- ofold_app. split; [apply read_bad|apply read_good].
Qed.

(** * Writing and reading back *)

Lemma written_entry : forall w, written_ok w ->
  entry_line (wr_a w ++ wr_key w ++ wr_b w ++ "=" :: wr_c w ++ wr_value w ++ wr_d w) (wr_key w) (wr_value w).
Proof.
  intros w (_ & A & B & C & D & K & NE & NH & _ & V & _).
  exists (wr_a w), (wr_b w), (wr_c w), (wr_d w). repeat split; assumption || apply K || apply V.
Qed.

Lemma noise_fold : forall ns m, Forall (fun l => no_newline l /\ (blank_line l \/ comment_line l)) ns ->
  ofold readLine ns m = Ok m.
Proof.
  induction ns as [|n ns IH]; intros m F; [reflexivity|]. inversion F as [|? ? [_ [B|B]]]; subst; cbn.
  - rewrite readLine_blank by exact B. cbn. apply IH. assumption.
  - rewrite readLine_comment by exact B. cbn. apply IH. assumption.
Qed.

Lemma written_fold : forall ws m, ordered m -> Forall written_ok ws ->
  (forall w w1 w2, ws = w1 ++ w :: w2 -> Forall (fun w' => ~ same_word (wr_key w) (wr_key w')) w2) ->
  (forall w, In w ws -> getProperty m (wr_key w) = None) ->
  exists m', ofold readLine (written_lines ws) m = Ok m' /\ ordered m' /\
    size m' = (size m + List.length ws)%nat /\
    forall k v, getProperty m' k = Some v <->
      getProperty m k = Some v \/ exists w, In w ws /\ same_word k (wr_key w) /\ wr_value w = v.
Proof.
  induction ws as [|w ws IH]; intros m O F ND FR.
  - exists m. cbn. split; [reflexivity|]. split; [exact O|]. split; [lia|]. intros k v. split; [auto|]. intros [H|(w & [] & _)]; exact H.
  - inversion F as [|? ? W F']; subst. unfold written_lines. cbn [map concat]. rewrite !ofold_app.
    rewrite noise_fold by (apply W). cbn [obind ofold]. rewrite (readLine_entry _ _ _ _ (written_entry w W)). cbn [obind].
    assert (Fk : map_find (lower (wr_key w)) m = None) by (apply FR; left; reflexivity).
    destruct (IH (map_insert (lower (wr_key w)) (wr_value w) m)) as (m' & E & O' & S' & G).
    + apply ordered_insert. exact O.
    + exact F'.
    + intros w0 w1 w2 ->. apply (ND w0 (w :: w1) w2). reflexivity.
    + intros w0 I. unfold getProperty. rewrite find_insert by exact O.
      pose proof (FR w0 (or_intror I)) as R. unfold getProperty in R. rewrite R.
      destruct (text_eqb (lower (wr_key w0)) (lower (wr_key w))) eqn:Q; [|reflexivity].
      exfalso. apply text_eqb_eq in Q. specialize (ND w [] ws eq_refl). rewrite Forall_forall in ND.
      apply (ND w0 I). apply same_word_lower. symmetry. exact Q.
    + exists m'. unfold written_lines in E. split; [exact E|]. split; [exact O'|]. split.
      { rewrite S'. rewrite size_insert by exact O. rewrite Fk. cbn. lia. }
      intros k v. rewrite G. unfold getProperty. rewrite find_insert by exact O.
      destruct (text_eqb (lower k) (lower (wr_key w))) eqn:Q.
      * apply text_eqb_eq in Q. rewrite Q, Fk. split.
        -- intros [H|(w0 & I & K & V)].
           ++ right. exists w. split; [left; reflexivity|]. split; [apply same_word_lower; exact Q|congruence].
           ++ right. exists w0. split; [right; exact I|]. auto.
        -- intros [H|(w0 & [<-|I] & K & V)]; [discriminate|left; congruence|right; eauto].
      * apply text_eqb_neq in Q. split.
        -- intros [H|(w0 & I & K & V)]; [left; destruct (map_find (lower k) m); congruence|].
           right. exists w0. split; [right; exact I|]. auto.
        -- intros [H|(w0 & [<-|I] & K & V)]; [left; rewrite H; reflexivity| |right; eauto].
           apply same_word_lower in K. contradiction.
Qed.

Lemma C47_l : forall ws tail content,
  Forall written_ok ws ->
  (forall w w1 w2, ws = w1 ++ w :: w2 -> Forall (fun w' => ~ same_word (wr_key w) (wr_key w')) w2) ->
  Forall (fun l => no_newline l /\ (blank_line l \/ comment_line l)) tail ->
  is_lines content (written_lines ws ++ tail) ->
  exists m, propertiesOf (Some content) = Ok m /\ size m = List.length ws /\
    forall k v, getProperty m k = Some v <-> exists w, In w ws /\ same_word k (wr_key w) /\ wr_value w = v.
Proof.
  intros ws tail content F ND T L.
  destruct (written_fold ws empty_props ordered_empty F ND) as (m & E & O & S & G); [reflexivity|].
  exists m. split.
  - unfold propertiesOf, readFile. rewrite (getlines_is_lines _ _ L), ofold_app, E. cbn. apply noise_fold. exact T.
  - split; [exact S|]. intros k v. rewrite G. split; [intros [H|H]; [discriminate|exact H]|auto].
Qed.

(** * Objects reachable through the public interface *)

Lemma read_lowered : forall ls m m', lowered m -> ofold readLine ls m = Ok m' -> lowered m'.
Proof.
  induction ls as [|l ls IH]; intros m m' O H; cbn in H; [injection H as <-; exact O|].
  destruct (readLine m l) as [m1| |] eqn:R; try discriminate. cbn in H. apply (IH m1 m'); [|exact H].
  destruct (readLine_ok _ _ _ R) as [[_ ->]|(k & v & _ & ->)]; [exact O|].
  apply keys_insert_forall; [apply lower_idem|exact O].
Qed.

Lemma constructed_ok : forall m,
  m = empty_props \/ (exists f, propertiesOf f = Ok m) \/ (exists b d, propertiesOf2 b d = Ok m) ->
  ordered m /\ lowered m.
Proof.
  intros m [->|[[f H]|(b & d & H)]].
  - split; [apply ordered_empty|apply lowered_empty].
  - destruct f as [c|]; [|discriminate]. cbn in H. split; [exact (proj1 (read_first _ _ _ ordered_empty H))|exact (read_lowered _ _ _ lowered_empty H)].
  - destruct b as [b|], d as [d|]; try discriminate.
    + unfold propertiesOf2, readFile in H. rewrite <- ofold_app in H.
      split; [exact (proj1 (read_first _ _ _ ordered_empty H))|exact (read_lowered _ _ _ lowered_empty H)].
    + unfold propertiesOf2 in H. destruct (readFile (Some b) empty_props); discriminate.
Qed.

Lemma C44_object_l : forall m ops,
  m = empty_props \/ (exists f, propertiesOf f = Ok m) \/ (exists b d, propertiesOf2 b d = Ok m) ->
  let m' := fold_left (fun m kv => putProperty m (fst kv) (snd kv)) ops m in
  (forall k v, getProperty m' k = Some v <->
     last_put ops k v \/ (getProperty m k = Some v /\ forall k' v', In (k', v') ops -> ~ same_word k k')) /\
  (forall k, contains m' k = true <-> exists v, getProperty m' k = Some v) /\
  NoDup (keys m') /\ List.length (keys m') = size m' /\
  (forall k, contains m' k = true <-> exists k', In k' (keys m') /\ same_word k k') /\
  (forall k v, size (putProperty m' k v) = (size m' + if contains m' k then 0 else 1)%nat).
Proof.
  intros m ops H m'. destruct (constructed_ok m H) as [O L].
  assert (O' : ordered m') by (apply (puts_ordered ops m O)).
  assert (L' : lowered m') by (apply (puts_lowered ops m L)).
  destruct (keys_complete m' O' L') as (K1 & _ & K3 & K4).
  split; [|split; [apply contains_get|split; [exact K1|split; [exact K4|split; [exact K3|]]]]].
  - intros k v. destruct (get_puts ops m k) as [(w & Lw & G)|(N & N' & G)]; unfold puts in G; fold m' in G; rewrite G.
    + split; [intros E; injection E as <-; left; exact Lw|]. intros [Lv|[_ A]].
      * f_equal. exact (last_put_unique _ _ _ _ Lw Lv).
      * exfalso. destruct Lw as (b & k' & a & E & W & _). apply (A k' w); [rewrite E; apply in_or_app; right; left; reflexivity|exact W].
    + split; [intros E; right; split; assumption|]. intros [Lv|[E _]]; [exfalso; exact (N v Lv)|exact E].
  - intros k v. apply put_size. exact O'.
Qed.

(** * Lists of numbers *)

Lemma csv_plain : forall f tok o s, plain f ->
  csv_scan (f ++ s) tok false false o = csv_scan s (tok ++ f) false false (match f with [] => o | _ => true end).
Proof.
  induction f as [|c f IH]; intros tok o s P; [rewrite app_nil_r; reflexivity|].
  inversion P as [|? ? (A & B & C) P']; subst. cbn [app csv_scan].
  destruct (Ascii.eqb_spec c "\"); [congruence|]. destruct (Ascii.eqb_spec c ","); [congruence|].
  destruct (Ascii.eqb_spec c """"); [congruence|]. rewrite IH by exact P'. rewrite <- app_assoc. cbn [app].
  destruct f; reflexivity.
Qed.
Lemma csv_joined_open : forall fs f, plain f -> Forall plain fs ->
  csv_scan (joined "," (f :: fs)) [] false false true = Ok (f :: fs).
Proof.
  induction fs as [|g fs IH]; intros f P F.
  - cbn [joined]. rewrite <- (app_nil_r f) at 1. rewrite csv_plain by exact P. cbn. destruct f; reflexivity.
  - inversion F; subst. cbn [joined]. rewrite csv_plain by exact P. cbn [csv_scan Ascii.eqb Bool.eqb app].
    cbn [joined] in IH. rewrite IH by assumption. reflexivity.
Qed.
Lemma csv_joined : forall fs, Forall plain fs -> joined "," fs <> [] -> csv_tokens (joined "," fs) = Ok fs.
Proof.
  intros [|f fs] F N; [exfalso; apply N; reflexivity|]. inversion F; subst. unfold csv_tokens.
  destruct fs as [|g fs].
  - cbn [joined] in *. rewrite <- (app_nil_r f) at 1. rewrite csv_plain by assumption. destruct f; [congruence|]. reflexivity.
  - cbn [joined]. rewrite csv_plain by assumption. cbn [csv_scan Ascii.eqb Bool.eqb app].
    inversion H2; subst. pose proof (csv_joined_open fs g) as Q. cbn [joined] in Q. rewrite Q by assumption. reflexivity.
Qed.
Lemma stod_all_ok : forall T (rd : reader T) fs xs, Forall2 (fun f x => rd_stod rd f = Value x) fs xs ->
  stod_all rd fs = Ok (Some xs).
Proof.
  induction fs as [|f fs IH]; intros xs F; inversion F; subst; [reflexivity|]. cbn.
  rewrite H1, (IH _ H3). reflexivity.
Qed.
Lemma stod_all_inv : forall T (rd : reader T) fs xs, stod_all rd fs = Ok (Some xs) ->
  Forall2 (fun f x => rd_stod rd f = Value x) fs xs.
Proof.
  induction fs as [|f fs IH]; intros xs H; cbn in H; [injection H as <-; constructor|].
  destruct (rd_stod rd f) as [x| |] eqn:E; try discriminate.
  destruct (stod_all rd fs) as [[r|]| |] eqn:R; try discriminate. cbn in H. injection H as <-.
  constructor; [exact E|apply IH; reflexivity].
Qed.

Lemma C57_vector_l : forall T (rd : reader T) m k fs xs,
  Forall plain fs -> joined "," fs <> [] -> getProperty m k = Some (joined "," fs) ->
  (getPropertyAsDoubleVector rd m k = Ok (Some xs) <-> Forall2 (fun f x => rd_stod rd f = Value x) fs xs).
Proof.
  intros T rd m k fs xs F N G. unfold getPropertyAsDoubleVector. rewrite G, csv_joined by assumption. cbn.
  split; [apply stod_all_inv|apply stod_all_ok].
Qed.

(** The two overloads of getPropertyAsDoubleVector agree when the ublas one answers. *)
Lemma scan_agree : forall T (rd : reader T) s tok inq esc o vec toks r,
  csv_scan s tok inq esc o = Ok toks -> stod_all rd toks = Ok r ->
  match r with
  | Some xs => stod_scan rd s tok inq esc o vec = Ok (true, vec ++ xs)
  | None => exists v, stod_scan rd s tok inq esc o vec = Ok (false, v)
  end.
Proof.
  induction s as [|c s IH]; intros tok inq esc o vec toks r H R.
  - cbn in *. destruct esc; [discriminate|]. injection H as <-. destruct o.
    + cbn in R. destruct (rd_stod rd tok); try discriminate; cbn in R; injection R as <-; [reflexivity|eauto].
    + cbn in R. injection R as <-. rewrite app_nil_r. reflexivity.
  - cbn in *. destruct esc.
    { destruct (Ascii.eqb c "n"); [eapply IH; eauto|].
      destruct (Ascii.eqb c """" || Ascii.eqb c "," || Ascii.eqb c "\")%bool; [eapply IH; eauto|discriminate]. }
    destruct (Ascii.eqb c "\"); [eapply IH; eauto|].
    destruct (Ascii.eqb c ",").
    + destruct inq; [eapply IH; eauto|].
      destruct (csv_scan s [] false false true) as [t| |] eqn:E; try discriminate. cbn in H. injection H as <-.
      cbn in R. destruct (rd_stod rd tok) as [x| |] eqn:Q; try discriminate.
      * destruct (stod_all rd t) as [r'| |] eqn:R'; try discriminate. cbn in R. injection R as <-.
        specialize (IH [] false false true (vec ++ [x]) t r' E R'). destruct r' as [xs|]; cbn.
        -- rewrite IH, <- app_assoc. reflexivity.
        -- exact IH.
      * injection R as <-. eauto.
    + destruct (Ascii.eqb c """"); eapply IH; eauto.
Qed.
Lemma overloads_agree : forall T (rd : reader T) m k vec r,
  getPropertyAsDoubleVector rd m k = Ok r ->
  match r with
  | Some xs => getPropertyAsStdVector rd m k vec = Ok (true, xs)
  | None => exists v, getPropertyAsStdVector rd m k vec = Ok (false, v)
  end.
Proof.
  intros T rd m k vec r H. unfold getPropertyAsDoubleVector, getPropertyAsStdVector in *.
  destruct (getProperty m k) as [val|]; [|injection H as <-; eauto].
  destruct (csv_tokens val) as [toks| |] eqn:E; try discriminate. cbn in H.
  exact (scan_agree T rd val [] false false false [] toks r E H).
Qed.

Lemma C46_none_l : propertiesOf None = Throw DomainErrorPtr /\
  forall b, exists e, propertiesOf2 b None = Throw e /\ propertiesOf2 None b = Throw DomainErrorPtr.
Proof.
  split; [reflexivity|]. intros [b|]; [|exists DomainErrorPtr; split; reflexivity].
  unfold propertiesOf2, readFile.
  destruct (ofold readLine (getlines [] b) empty_props) as [m|e|] eqn:E; cbn; [exists DomainErrorPtr; auto|eexists; split; reflexivity|].
  exfalso. revert E. generalize empty_props. generalize (getlines [] b). induction l as [|x l IH]; intros p E; cbn in E; [discriminate|].
  destruct (readLine_total p x) as [R|[p' R]]; rewrite R in E; cbn in E; [discriminate|eauto].
Qed.

Lemma C46_case_l : bad_line "no separator here"%string /\ bad_line " = 3"%string /\ bad_line "key =  "%string /\
  ~ bad_line "key = 3"%string.
Proof.
  split; [|split; [|split]].
  - apply (readLine_throws []). reflexivity.
  - apply (readLine_throws []). reflexivity.
  - apply (readLine_throws []). reflexivity.
  - intros H. apply (readLine_bad []) in H. vm_compute in H. discriminate.
Qed.

Lemma C47_case_l :
  let w1 := mkWritten [tx "# walls"] [blank] [tab] [] [carriage] "wallU"%string "1.5"%string in
  let w2 := mkWritten [[]] [] [] [blank] [] "floorArea"%string "500 m2"%string in
  Forall written_ok [w1; w2] /\ ~ same_word (wr_key w1) (wr_key w2) /\
  is_lines (ended (written_lines [w1; w2])) (written_lines [w1; w2]).
Proof.
  intros w1 w2. assert (C : forall (c d : ascii) r, (c <> blank /\ c <> tab) -> (d <> blank /\ d <> tab /\ d <> carriage) ->
     forall w, w = c :: r -> (exists r', w = r' ++ [d]) -> clean w).
  { intros c d r [C1 C2] (D1 & D2 & D3) w E [r' E']. split; [exists c, r|exists r', d]; (split; [assumption|]);
    unfold before_char, after_char; tauto. }
  split; [|split].
  - constructor; [|constructor; [|constructor]]; unfold written_ok; cbn.
    + repeat split.
      * constructor; [|constructor]. split; [intros H; repeat destruct H as [H|H]; try discriminate H; exact H|].
        right. exists [], (tx " walls"). split; [constructor|reflexivity].
      * constructor; [left; reflexivity|constructor].
      * constructor; [right; left; reflexivity|constructor].
      * constructor.
      * constructor; [right; right; reflexivity|constructor].
      * exists "w", (tx "allU"). split; [reflexivity|intros [H|H]; discriminate].
      * exists (tx "wall"), "U". split; [reflexivity|intros [H|[H|H]]; discriminate].
      * intros H; repeat destruct H as [H|H]; try discriminate H; exact H.
      * discriminate.
      * intros H; repeat destruct H as [H|H]; try discriminate H; exact H.
      * exists "1", (tx ".5"). split; [reflexivity|intros [H|H]; discriminate].
      * exists (tx "1."), "5". split; [reflexivity|intros [H|[H|H]]; discriminate].
      * intros H; repeat destruct H as [H|H]; try discriminate H; exact H.
    + repeat split.
      * constructor; [|constructor]. split; [intros []|left; constructor].
      * constructor.
      * constructor.
      * constructor; [left; reflexivity|constructor].
      * constructor.
      * exists "f", (tx "loorArea"). split; [reflexivity|intros [H|H]; discriminate].
      * exists (tx "floorAre"), "a". split; [reflexivity|intros [H|[H|H]]; discriminate].
      * intros H; repeat destruct H as [H|H]; try discriminate H; exact H.
      * discriminate.
      * intros H; repeat destruct H as [H|H]; try discriminate H; exact H.
      * exists "5", (tx "00 m2"). split; [reflexivity|intros [H|H]; discriminate].
      * exists (tx "500 m"), "2". split; [reflexivity|intros [H|[H|H]]; discriminate].
      * intros H; repeat destruct H as [H|H]; try discriminate H; exact H.
  - rewrite same_word_lower. vm_compute. discriminate.
  - split; [|left; reflexivity]. repeat constructor; intros H; vm_compute in H; repeat destruct H as [H|H]; try discriminate H; exact H.
Qed.
