(** Lemmas about the averages: closed forms of the bin updates. *)
From Coq Require Import ZArith Lia.
From Verif Require Import Base Num M_TimeFrame M_Epw M_Solar S_Calendar S_Solar L_Calendar L_HourlyShape L_Epw.
Open Scope nat_scope.
Open Scope list_scope.

Section Lists.
Context {A : Type}.
Lemma vmod_ok : forall (v : list A) k f d, k < length v -> vmod v k f = Ok (upd v k (f (nth k v d))).
Proof.
  intros v k f d H. unfold vmod, vget. rewrite (nth_error_nth' v d H). cbn [obind]. apply vset_ok. exact H.
Qed.
Lemma upd_upd : forall (v : list A) k x y, upd (upd v k x) k y = upd v k y.
Proof. induction v as [|a v IH]; intros [|k] x y; cbn; try reflexivity. rewrite IH. reflexivity. Qed.
Lemma nth_upd_same : forall (v : list A) k x d, k < length v -> nth k (upd v k x) d = x.
Proof. intros v k x d H. apply nth_error_nth. apply upd_same. exact H. Qed.
End Lists.
Section Lists2.
Context {A : Type}.
Lemma mmod_ok : forall (m : list (list A)) i j f d, i < length m -> j < length (nth i m []) ->
  mmod m i j f = Ok (upd m i (upd (nth i m []) j (f (nth j (nth i m []) d)))).
Proof.
  intros m i j f d H1 H2. unfold mmod, vget. rewrite (nth_error_nth' m [] H1). cbn [obind].
  rewrite (vmod_ok _ _ _ d H2). cbn [obind]. apply vset_ok. exact H1.
Qed.
Lemma upd_app_r : forall (l1 l2 : list A) k x, upd (l1 ++ l2) (length l1 + k) x = l1 ++ upd l2 k x.
Proof. induction l1 as [|a l1 IH]; intros l2 k x; cbn; [reflexivity|]. rewrite IH. reflexivity. Qed.

(** A loop over the columns of row [i] that changes entry [j] with [g j]. *)
Lemma row_loop : forall (body : list (list A) -> nat -> outcome (list (list A))) (g : nat -> A -> A) d i n (m : list (list A)),
  (forall m' j, i < length m' -> j < length (nth i m' []) -> j < n ->
     body m' j = Ok (upd m' i (upd (nth i m' []) j (g j (nth j (nth i m' []) d))))) ->
  i < length m -> length (nth i m []) = n ->
  ofold body (seq 0 n) m = Ok (upd m i (map (fun j => g j (nth j (nth i m []) d)) (seq 0 n))).
Proof.
  intros body g d i n m HB Hi Hn.
  assert (G : forall k done rest, length done + k = n -> nth i m [] = done ++ rest -> length rest = k ->
    forall done', length done' = length done -> forall m', m' = upd m i (done' ++ rest) ->
    ofold body (seq (length done) k) m' =
    Ok (upd m i (done' ++ map (fun j => g j (nth j (nth i m []) d)) (seq (length done) k)))).
  { induction k as [|k IH]; intros done rest HK E HR done' HD m' ->.
    - destruct rest; [|discriminate]. reflexivity.
    - destruct rest as [|x rest]; [discriminate|]. cbn [seq ofold map].
      assert (LU : i < length (upd m i (done' ++ x :: rest))) by (rewrite upd_length; exact Hi).
      assert (RU : nth i (upd m i (done' ++ x :: rest)) [] = done' ++ x :: rest) by (apply nth_upd_same; exact Hi).
      rewrite HB; [|exact LU|rewrite RU, app_length; cbn; lia|lia]. cbn [obind]. rewrite RU.
      rewrite upd_upd.
      replace (nth (length done) (done' ++ x :: rest) d) with x by (rewrite <- HD, nth_middle; reflexivity).
      assert (X : nth (length done) (nth i m []) d = x) by (rewrite E, nth_middle; reflexivity).
      rewrite X. specialize (IH (done ++ [x]) rest).
      rewrite app_length in IH. cbn [length] in IH. replace (length done + 1) with (S (length done)) in IH by lia.
      rewrite (IH ltac:(lia) ltac:(rewrite E, <- app_assoc; reflexivity) ltac:(cbn in HR; lia) (done' ++ [g (length done) x])).
      + rewrite <- app_assoc. reflexivity.
      + rewrite app_length. cbn. lia.
      + f_equal. replace (length done) with (length done' + 0) by lia. rewrite upd_app_r. rewrite <- app_assoc. reflexivity. }
  specialize (G n [] (nth i m []) eq_refl eq_refl Hn [] eq_refl m). cbn [length app] in G. apply G.
  clear -Hi. revert i Hi. induction m as [|a m IH]; intros [|i] H; cbn in *; try lia; [reflexivity|]. rewrite <- IH by lia. reflexivity.
Qed.
Lemma mrow_ok : forall n (m : list (list A)) i f d, i < length m -> length (nth i m []) = n ->
  mrow n m i f = Ok (upd m i (map (fun j => f (nth j (nth i m []) d)) (seq 0 n))).
Proof.
  intros n m i f d H1 H2. unfold mrow.
  apply (row_loop (fun m j => mmod m i j f) (fun _ => f) d i n m); [|exact H1|exact H2].
  intros m' j A1 A2 _. apply mmod_ok; assumption.
Qed.
End Lists2.

Section Averages.
Context {T : Type} {N : Num T}.
Local Open Scope num_scope.
Notation z0 := (zn 0 : T).

(** The shape of the averages: twelve months, eight surfaces, twenty-four hours. *)
Definition shaped (a : averages T) : Prop :=
  length (av_mdbt a) = 12 /\ length (av_mdpt a) = 12 /\ length (av_mrh a) = 12 /\ length (av_mwind a) = 12 /\ length (av_megh a) = 12 /\
  (length (av_msol a) = 12 /\ Forall (fun r => length r = 8) (av_msol a)) /\
  (length (av_hdbt a) = 12 /\ Forall (fun r => length r = 24) (av_hdbt a)) /\
  (length (av_hdpt a) = 12 /\ Forall (fun r => length r = 24) (av_hdpt a)) /\
  (length (av_hegh a) = 12 /\ Forall (fun r => length r = 24) (av_hegh a)).

(** The bins of one month. *)
Record bins := mkBins { b_dbt : T; b_dpt : T; b_rh : T; b_wind : T; b_egh : T; b_sol : list T; b_hdbt : list T; b_hdpt : list T; b_hegh : list T }.
Definition bins_ok (b : bins) : Prop := length (b_sol b) = 8 /\ length (b_hdbt b) = 24 /\ length (b_hdpt b) = 24 /\ length (b_hegh b) = 24.
Definition set_bins (k : nat) (b : bins) (a : averages T) : averages T :=
  mkAverages (upd (av_mdbt a) k (b_dbt b)) (upd (av_mdpt a) k (b_dpt b)) (upd (av_mrh a) k (b_rh b)) (upd (av_mwind a) k (b_wind b))
    (upd (av_megh a) k (b_egh b)) (upd (av_msol a) k (b_sol b)) (upd (av_hdbt a) k (b_hdbt b)) (upd (av_hdpt a) k (b_hdpt b)) (upd (av_hegh a) k (b_hegh b)).

Lemma Forall_upd : forall A (P : A -> Prop) (v : list A) k x, Forall P v -> P x -> Forall P (upd v k x).
Proof.
  intros A P. induction v as [|a v IH]; intros k x H1 H2; [constructor|]. inversion H1; subst.
  destruct k; cbn; constructor; auto.
Qed.
Lemma shaped_set : forall k b a, shaped a -> bins_ok b -> shaped (set_bins k b a).
Proof.
  intros k b a (A1&A2&A3&A4&A5&(A6&B6)&(A7&B7)&(A8&B8)&(A9&B9)) (C1&C2&C3&C4). unfold shaped, set_bins. cbn.
  rewrite !upd_length. repeat split; try assumption; apply Forall_upd; assumption.
Qed.
Lemma set_set : forall k b b' a, set_bins k b (set_bins k b' a) = set_bins k b a.
Proof. intros. unfold set_bins. cbn. rewrite !upd_upd. reflexivity. Qed.

Lemma row_length : forall n (m : list (list T)) k, Forall (fun r => length r = n) m -> k < length m -> length (nth k m []) = n.
Proof. intros n m k H L. apply (proj1 (Forall_forall _ _) H). apply nth_In. exact L. Qed.

Lemma map_const : forall A B (l : list A) (c : B), map (fun _ => c) l = repeat c (length l).
Proof. induction l as [|a l IH]; intros c; cbn; [reflexivity|]. rewrite IH. reflexivity. Qed.

Definition zero_bins : bins := mkBins z0 z0 z0 z0 z0 (repeat z0 8) (repeat z0 24) (repeat z0 24) (repeat z0 24).
Lemma clear_ok : forall k a, k < 12 -> shaped a -> clearMonthlyAvg (Z.of_nat k) a = Ok (set_bins k zero_bins a).
Proof.
  intros k a HK (A1&A2&A3&A4&A5&(A6&B6)&(A7&B7)&(A8&B8)&(A9&B9)). unfold clearMonthlyAvg, index.
  rewrite (proj2 (Z.ltb_ge _ _)) by lia. cbn [obind]. rewrite Nat2Z.id.
  rewrite (mrow_ok 24 _ k _ z0) by first [lia | apply row_length; [assumption|lia]]. cbn [obind].
  rewrite (mrow_ok 24 _ k _ z0) by first [lia | apply row_length; [assumption|lia]]. cbn [obind].
  rewrite (mrow_ok 24 _ k _ z0) by first [lia | apply row_length; [assumption|lia]]. cbn [obind].
  unfold NUM_SURFACES. rewrite (mrow_ok 8 _ k _ z0) by first [lia | apply row_length; [assumption|lia]]. cbn [obind].
  rewrite !vset_ok by lia. cbn [obind]. rewrite !map_const. rewrite !seq_length. reflexivity.
Qed.

Definition scale (c d : T) (b : bins) : bins :=
  mkBins (b_dbt b / c) (b_dpt b / c) (b_rh b / c) (b_wind b / c) (b_egh b / c) (map (fun x => x / c) (b_sol b))
    (map (fun x => x / d) (b_hdbt b)) (map (fun x => x / d) (b_hdpt b)) (map (fun x => x / d) (b_hegh b)).
Lemma map_nth_seq : forall A B (f : A -> B) (l : list A) d, map (fun j => f (nth j l d)) (seq 0 (length l)) = map f l.
Proof.
  intros A B f l d. rewrite <- (map_map (fun j => nth j l d) f). f_equal.
  apply nth_error_ext. intros i. rewrite nth_error_map. destruct (Nat.lt_ge_cases i (length l)) as [H|H].
  - rewrite (@nth_error_nth' nat (seq 0 (length l)) i 0) by (rewrite seq_length; exact H). cbn [option_map]. rewrite seq_nth by exact H.
    symmetry. apply nth_error_nth'. exact H.
  - rewrite (proj2 (nth_error_None (seq 0 (length l)) i)) by (rewrite seq_length; exact H). cbn. symmetry. apply nth_error_None. exact H.
Qed.

Lemma avg_ok : forall k cnt b a, k < 12 -> shaped a -> bins_ok b ->
  calculateMonthAvg (Z.of_nat k) cnt (set_bins k b a) = Ok (set_bins k (scale (zn cnt) (zn (monthLength (Z.of_nat k + 1))) b) a).
Proof.
  intros k cnt b a HK SH BO. pose proof (shaped_set k b a SH BO) as SH2.
  destruct SH2 as (A1&A2&A3&A4&A5&(A6&B6)&(A7&B7)&(A8&B8)&(A9&B9)). destruct BO as (C1&C2&C3&C4).
  unfold calculateMonthAvg, index. rewrite (proj2 (Z.gtb_lt _ _)) by lia. rewrite (proj2 (Z.ltb_ge _ _)) by lia. cbn [obind].
  rewrite Nat2Z.id.
  rewrite !(vmod_ok _ k _ z0) by lia. cbn [obind].
  unfold NUM_SURFACES. rewrite (mrow_ok 8 _ k _ z0) by first [lia | apply row_length; [assumption|lia]]. cbn [obind].
  rewrite (mrow_ok 24 _ k _ z0) by first [lia | apply row_length; [assumption|lia]]. cbn [obind].
  rewrite (mrow_ok 24 _ k _ z0) by first [lia | apply row_length; [assumption|lia]]. cbn [obind].
  rewrite (mrow_ok 24 _ k _ z0) by first [lia | apply row_length; [assumption|lia]]. cbn [obind].
  destruct SH as (S1&S2&S3&S4&S5&(S6&_)&(S7&_)&(S8&_)&(S9&_)).
  unfold set_bins, scale. cbn [av_mdbt av_mdpt av_mrh av_mwind av_megh av_msol av_hdbt av_hdpt av_hegh b_dbt b_dpt b_rh b_wind b_egh b_sol b_hdbt b_hdpt b_hegh].
  rewrite !upd_upd. rewrite !nth_upd_same by lia.
  pose proof (map_nth_seq T T (fun x => x / zn cnt) (b_sol b) z0) as M1. rewrite C1 in M1. rewrite M1.
  pose proof (map_nth_seq T T (fun x => x / zn (monthLength (Z.of_nat k + 1))) (b_hdbt b) z0) as M2. rewrite C2 in M2. rewrite M2.
  pose proof (map_nth_seq T T (fun x => x / zn (monthLength (Z.of_nat k + 1))) (b_hdpt b) z0) as M3. rewrite C3 in M3. rewrite M3.
  pose proof (map_nth_seq T T (fun x => x / zn (monthLength (Z.of_nat k + 1))) (b_hegh b) z0) as M4. rewrite C4 in M4. rewrite M4.
  reflexivity.
Qed.
End Averages.
