(** The keys of a property map are in dictionary order; the answers of a map determine it. *)
From Coq Require Import Ascii String NArith Sorted.
From Verif Require Import Base Text M_Text M_Properties S_Text S_Properties S_Order L_Text L_Properties.
Open Scope char_scope.
Open Scope list_scope.

Lemma precedes_cons : forall c a b, precedes a b -> precedes (c :: a) (c :: b).
Proof.
  intros c a b (p & [(y & t & -> & ->)|(x & s & y & t & -> & -> & H)]); exists (c :: p).
  - left. exists y, t. split; reflexivity.
  - right. exists x, s, y, t. split; [reflexivity|]. split; [reflexivity|exact H].
Qed.
Lemma ltb_precedes : forall a b, text_ltb a b = true -> precedes a b.
Proof.
  induction a as [|x a IH]; intros [|y b] H; cbn in H; try discriminate H.
  - exists []. left. exists y, b. split; reflexivity.
  - destruct (N.ltb_spec (N_of_ascii x) (N_of_ascii y)) as [L|L].
    + exists []. right. exists x, a, y, b. split; [reflexivity|]. split; [reflexivity|exact L].
    + destruct (N.ltb_spec (N_of_ascii y) (N_of_ascii x)) as [G|G]; [discriminate H|].
      assert (E : N_of_ascii x = N_of_ascii y) by (apply N.le_antisymm; assumption).
      assert (X : x = y) by (rewrite <- (ascii_N_embedding x), <- (ascii_N_embedding y), E; reflexivity). subst y. apply precedes_cons, IH, H.
Qed.
Lemma lower_no_capitals : forall k, lower k = k -> no_capitals k.
Proof.
  intros k H c I [A B]. assert (T : tolower c = c).
  { revert k H I. induction k as [|d k IH]; intros H I; [destruct I|]. cbn in H. injection H as H1 H2. destruct I as [-> |I]; [exact H1|exact (IH H2 I)]. }
  revert T A B. destruct c as [[] [] [] [] [] [] [] []]; vm_compute; try discriminate; intros _ A B; solve [now apply A | now apply B].
Qed.

(** A map is determined by its answers. *)
Lemma find_ext : forall m n, ordered m -> ordered n -> (forall k, map_find k m = map_find k n) -> m = n.
Proof.
  induction m as [|[a x] m IH]; intros [|[b y] n] O P F.
  - reflexivity.
  - specialize (F b). cbn in F. rewrite text_eqb_refl in F. discriminate F.
  - specialize (F a). cbn in F. rewrite text_eqb_refl in F. discriminate F.
  - inversion O as [|? ? O1 O2]; subst. inversion P as [|? ? P1 P2]; subst.
    assert (NA : map_find a m = None) by (apply find_none_below; exact O2).
    assert (NB : map_find b n = None) by (apply find_none_below; exact P2).
    assert (E : a = b).
    { destruct (text_eqb a b) eqn:E; [now apply text_eqb_eq|]. exfalso.
      pose proof (F a) as FA. pose proof (F b) as FB. cbn in FA, FB. rewrite text_eqb_refl, E in FA. rewrite text_eqb_refl in FB.
      assert (IA : In a (keys n)) by (apply find_in_keys; congruence).
      rewrite Forall_forall in O2, P2. pose proof (P2 _ IA) as L1.
      destruct (text_eqb b a) eqn:E2; [apply text_eqb_eq in E2; subst; rewrite text_eqb_refl in E; discriminate|].
      assert (IB : In b (keys m)) by (apply find_in_keys; congruence).
      pose proof (O2 _ IB) as L2. rewrite (text_ltb_asym _ _ L1) in L2. discriminate. }
    subst b. pose proof (F a) as FA. cbn in FA. rewrite text_eqb_refl in FA. injection FA as <-. f_equal.
    apply IH; [exact O1|exact P1|]. intros k. destruct (text_eqb k a) eqn:K.
    + apply text_eqb_eq in K. subst k. congruence.
    + specialize (F k). cbn in F. rewrite K in F. exact F.
Qed.
Lemma find_lowered : forall m k v, lowered m -> map_find k m = Some v -> lower k = k.
Proof.
  intros m k v L F. unfold lowered in L. rewrite Forall_forall in L. apply L, find_in_keys. congruence.
Qed.
Lemma get_ext : forall m n, ordered m -> ordered n -> lowered m -> lowered n -> (forall k, getProperty m k = getProperty n k) -> m = n.
Proof.
  intros m n O P L1 L2 G. apply find_ext; [exact O|exact P|]. intros k.
  destruct (text_eqb (lower k) k) eqn:E.
  - apply text_eqb_eq in E. specialize (G k). unfold getProperty in G. rewrite E in G. exact G.
  - assert (N : lower k <> k) by (intros H; rewrite H, text_eqb_refl in E; discriminate).
    destruct (map_find k m) eqn:A; [exfalso; exact (N (find_lowered _ _ _ L1 A))|].
    destruct (map_find k n) eqn:B; [exfalso; exact (N (find_lowered _ _ _ L2 B))|reflexivity].
Qed.

Lemma C103_order_l : forall m ops,
  m = empty_props \/ (exists f, propertiesOf f = Ok m) \/ (exists b d, propertiesOf2 b d = Ok m) ->
  let m' := fold_left (fun m kv => putProperty m (fst kv) (snd kv)) ops m in
  StronglySorted precedes (keys m') /\ Forall no_capitals (keys m').
Proof.
  intros m ops H m'. destruct (constructed_ok m H) as [O L].
  assert (O' : ordered m') by (apply (puts_ordered ops m O)).
  assert (L' : lowered m') by (apply (puts_lowered ops m L)). split.
  - clear - O'. unfold ordered in O'. induction O' as [|a l S IH F]; constructor; [exact IH|]. eapply Forall_impl; [|exact F]. exact (ltb_precedes a).
  - eapply Forall_impl; [|exact L']. exact lower_no_capitals.
Qed.
Lemma C103_answers_l : forall m n ops ops',
  m = empty_props \/ (exists f, propertiesOf f = Ok m) \/ (exists b d, propertiesOf2 b d = Ok m) ->
  n = empty_props \/ (exists f, propertiesOf f = Ok n) \/ (exists b d, propertiesOf2 b d = Ok n) ->
  let m' := fold_left (fun m kv => putProperty m (fst kv) (snd kv)) ops m in
  let n' := fold_left (fun m kv => putProperty m (fst kv) (snd kv)) ops' n in
  (forall k, getProperty m' k = getProperty n' k) -> keys m' = keys n' /\ m' = n'.
Proof.
  intros m n ops ops' H K m' n' G. destruct (constructed_ok m H) as [O L]. destruct (constructed_ok n K) as [P Q].
  assert (E : m' = n'); [|split; [now rewrite E|exact E]].
  apply get_ext; [exact (puts_ordered ops m O)|exact (puts_ordered ops' n P)|exact (puts_lowered ops m L)|exact (puts_lowered ops' n Q)|exact G].
Qed.
(** Updates of different keys may be exchanged. *)
Lemma C103_exchange_l : forall m ops k v k' v',
  m = empty_props \/ (exists f, propertiesOf f = Ok m) \/ (exists b d, propertiesOf2 b d = Ok m) -> ~ same_word k k' ->
  let m' := fold_left (fun m kv => putProperty m (fst kv) (snd kv)) ops m in
  putProperty (putProperty m' k v) k' v' = putProperty (putProperty m' k' v') k v.
Proof.
  intros m ops k v k' v' H D m'. destruct (constructed_ok m H) as [O L].
  assert (O' : ordered m') by (apply (puts_ordered ops m O)). assert (L' : lowered m') by (apply (puts_lowered ops m L)).
  apply get_ext.
  - exact (puts_ordered [(k, v); (k', v')] m' O').
  - exact (puts_ordered [(k', v'); (k, v)] m' O').
  - exact (puts_lowered [(k, v); (k', v')] m' L').
  - exact (puts_lowered [(k', v'); (k, v)] m' L').
  - intros q. unfold getProperty, putProperty. rewrite !find_assign.
    destruct (text_eqb (lower q) (lower k')) eqn:A, (text_eqb (lower q) (lower k)) eqn:B; try reflexivity.
    exfalso. apply D. apply same_word_lower. apply text_eqb_eq in A. apply text_eqb_eq in B. congruence.
Qed.
