(** Proofs about the calendar and the month sums. *)
From Coq Require Import ZArith List Bool Lia ZifyBool.
From Verif Require Import Base Num Xr M_TimeFrame M_Params M_Hourly S_Calendar.
Import ListNotations.
Open Scope Z_scope.
Ltac Zify.zify_post_hook ::= Z.div_mod_to_equations.

(** ** The calendar arrays *)

Definition cell_ok (i : Z) (c : option tcell) : bool :=
  match c with
  | None => false
  | Some c =>
    (tc_hour c =? i mod 24) && (tc_ytd c =? i / 24) && (tc_dow c =? (i / 24) mod 7)
    && (1 <=? tc_month c) && (tc_month c <=? 12)
    && (days_before (tc_month c) <=? i / 24) && (i / 24 <? days_before (tc_month c + 1))
    && (tc_dom c =? i / 24 - days_before (tc_month c) + 1)
  end.

Fixpoint cells_ok (i : Z) (l : list (option tcell)) : bool :=
  match l with
  | [] => i =? 8760
  | c :: t => cell_ok i c && cells_ok (i + 1) t
  end.

Lemma timeFrame_checked :
  match timeFrame with Ok a => cells_ok 0 a | _ => false end = true.
Proof. vm_compute. reflexivity. Qed.

Lemma cells_ok_nth l : forall i k, cells_ok i l = true -> (k < length l)%nat ->
  exists c, nth_error l k = Some (Some c) /\ cell_ok (i + Z.of_nat k) (Some c) = true.
Proof.
  induction l as [|c t IH]; intros i k H Hk; cbn [length] in Hk; [lia|].
  cbn [cells_ok] in H. apply andb_true_iff in H as [Hc Ht].
  destruct k as [|k].
  - destruct c as [c|]; [|discriminate Hc].
    exists c. split; [reflexivity|]. rewrite Z.add_0_r. exact Hc.
  - destruct (IH (i + 1) k Ht) as (c' & H1 & H2); [lia|].
    exists c'. split; [exact H1|]. rewrite <- H2. f_equal. lia.
Qed.

Lemma cells_ok_length l : forall i, cells_ok i l = true -> i + Z.of_nat (length l) = 8760.
Proof.
  induction l as [|c t IH]; intros i H; cbn [cells_ok length] in *.
  - lia.
  - apply andb_true_iff in H as [_ H]. apply IH in H. lia.
Qed.

Lemma timeFrame_spec : exists a, timeFrame = Ok a /\ Z.of_nat (length a) = 8760 /\
  forall i, 0 <= i < 8760 -> exists c, nth_error a (Z.to_nat i) = Some (Some c) /\
    tc_hour c = i mod 24 /\ tc_ytd c = i / 24 /\ tc_dow c = (i / 24) mod 7 /\
    calendar_day (i / 24) (tc_month c) (tc_dom c).
Proof.
  pose proof timeFrame_checked as H. destruct timeFrame as [a| |]; try discriminate H.
  exists a. split; [reflexivity|].
  pose proof (cells_ok_length _ _ H) as HL. split; [lia|].
  intros i Hi. destruct (cells_ok_nth a 0 (Z.to_nat i) H) as (c & H1 & H2); [lia|].
  exists c. split; [exact H1|].
  rewrite Z2Nat.id in H2 by lia. cbn [cell_ok] in H2. unfold calendar_day.
  rewrite !andb_true_iff in H2. intuition lia.
Qed.

(** ** Months partition the hours *)

Lemma days_before_bounds m : 1 <= m <= 12 ->
  0 <= days_before m /\ days_before m < days_before (m + 1) /\ days_before (m + 1) <= 365.
Proof.
  intros H.
  assert (C : forallb (fun m => (0 <=? days_before m) && (days_before m <? days_before (m + 1))
      && (days_before (m + 1) <=? 365)) (zrange 1 12) = true) by (vm_compute; reflexivity).
  rewrite forallb_forall in C. specialize (C m).
  assert (In m (zrange 1 12)).
  { unfold zrange. apply in_map_iff. exists (Z.to_nat (m - 1)). split; [lia|].
    apply in_seq. change (Z.to_nat 12) with 12%nat. lia. }
  apply C in H0. lia.
Qed.

Section Generic.
Context {A : Type}.

(** Filtering a numbered list by an index interval is firstn/skipn. *)
Lemma filter_interval (l : list A) : forall (lo hi k : nat), (lo <= hi)%nat ->
  map snd (filter (fun p => (Z.of_nat lo <=? Z.of_nat (fst p)) && (Z.of_nat (fst p) <? Z.of_nat hi))
             (combine (seq k (length l)) l))
  = firstn (hi - Nat.max lo k) (skipn (lo - k) l).
Proof.
  induction l as [|a t IH]; intros lo hi k Hlh.
  - cbn. rewrite skipn_nil, firstn_nil. reflexivity.
  - cbn [length seq combine filter fst].
    destruct (Z.leb_spec (Z.of_nat lo) (Z.of_nat k)) as [H1|H1];
    destruct (Z.ltb_spec (Z.of_nat k) (Z.of_nat hi)) as [H2|H2]; cbn [andb].
    + cbn [map snd]. rewrite IH by lia.
      replace (lo - k)%nat with 0%nat by lia. replace (lo - S k)%nat with 0%nat by lia. cbn [skipn].
      replace (hi - Nat.max lo k)%nat with (S (hi - Nat.max lo (S k))) by lia. reflexivity.
    + rewrite IH by lia. replace (hi - Nat.max lo (S k))%nat with 0%nat by lia.
      replace (hi - Nat.max lo k)%nat with 0%nat by lia. reflexivity.
    + rewrite IH by lia. replace (lo - k)%nat with (S (lo - S k)) by lia. cbn [skipn].
      f_equal. lia.
    + lia.
Qed.

Lemma month_part_interval (m : Z) (l : list A) : 1 <= m <= 12 ->
  month_part m l = firstn (Z.to_nat (24 * days_before (m + 1) - 24 * days_before m))
                          (skipn (Z.to_nat (24 * days_before m)) l).
Proof.
  intros Hm. pose proof (days_before_bounds m Hm) as HB. unfold month_part.
  transitivity (map snd (filter (fun p : nat * A =>
     (Z.of_nat (Z.to_nat (24 * days_before m)) <=? Z.of_nat (fst p))
     && (Z.of_nat (fst p) <? Z.of_nat (Z.to_nat (24 * days_before (m + 1))))) (combine (seq 0 (length l)) l))).
  - f_equal. apply filter_ext. intros p. unfold hour_in_month. rewrite !Z2Nat.id by lia. reflexivity.
  - rewrite filter_interval by lia. f_equal; [lia|]. f_equal. lia.
Qed.

(** Every hour belongs to exactly one month: the twelve parts concatenate to the series. *)
Lemma month_parts_concat (l : list A) : Z.of_nat (length l) = 8760 ->
  concat (map (fun m => month_part m l) (zrange 1 12)) = l.
Proof.
  intros HL.
  assert (step : forall a b, (a <= b)%nat -> (b <= length l)%nat ->
     firstn a l ++ firstn (b - a) (skipn a l) = firstn b l).
  { intros a b Hab Hb. rewrite <- (firstn_skipn a (firstn b l)).
    rewrite firstn_firstn, Nat.min_l by lia. f_equal. rewrite skipn_firstn_comm. reflexivity. }
  change (zrange 1 12) with [1; 2; 3; 4; 5; 6; 7; 8; 9; 10; 11; 12].
  cbn [map concat]. rewrite !month_part_interval by lia.
  repeat match goal with |- context [Z.to_nat ?x] =>
    lazymatch x with context [days_before _] =>
      let v := eval vm_compute in x in change x with v end end.
  change (skipn (Z.to_nat 0) l) with l.
  assert (E : firstn (Z.to_nat 8760) l = l) by (apply firstn_all2; lia).
  rewrite <- E at 13.
  rewrite app_nil_r.
  rewrite !app_assoc.
  repeat match goal with
  | |- context [firstn ?a l ++ firstn ?d (skipn ?a l)] =>
      match a with Z.to_nat ?za => match d with Z.to_nat ?zd =>
        let s := eval vm_compute in (za + zd) in
        replace (firstn a l ++ firstn d (skipn a l)) with (firstn (Z.to_nat s) l)
          by (rewrite <- (step a (Z.to_nat s)) by lia; do 2 f_equal; lia) end end
  end.
  reflexivity.
Qed.
End Generic.

Lemma map_month_part {A B} (f : A -> B) (m : Z) (l : list A) : 1 <= m <= 12 ->
  map f (month_part m l) = month_part m (map f l).
Proof.
  intros Hm. rewrite !month_part_interval by exact Hm. rewrite skipn_map, firstn_map. reflexivity.
Qed.


(** ** sumHoursByMonth *)

Section Sum.
Context {T : Type} {N : Num T}.

Lemma omap_ok {A B} (f : A -> outcome B) (g : A -> B) (l : list A) :
  (forall a, In a l -> f a = Ok (g a)) -> omap f l = Ok (map g l).
Proof.
  induction l as [|a t IH]; intros H; cbn [omap map]; [reflexivity|].
  rewrite (H a) by (left; reflexivity). cbn [obind].
  rewrite IH by (intros b Hb; apply H; right; exact Hb). reflexivity.
Qed.

Lemma monthsInHours_spec k : (k < 12)%nat ->
  nth_error monthsInHours k = Some (24 * days_before (Z.of_nat k + 1)) /\
  nth_error monthsInHours (S k) = Some (24 * days_before (Z.of_nat k + 1 + 1)).
Proof. intros H. do 12 (destruct k as [|k]; [split; vm_compute; reflexivity|]). lia. Qed.

Lemma sumHoursByMonth_ok (l : list T) : Z.of_nat (length l) = 8760 ->
  sumHoursByMonth l = Ok (map (fun m => accumulate (month_part m l)) (zrange 1 12)).
Proof.
  intros HL. unfold sumHoursByMonth.
  rewrite (omap_ok _ (fun k => accumulate (month_part (Z.of_nat k + 1) l))).
  - reflexivity.
  - intros k Hk. apply in_seq in Hk. destruct (monthsInHours_spec k) as [E1 E2]; [lia|].
    unfold vget. rewrite E1, E2. cbn [obind]. unfold sumRange.
    pose proof (days_before_bounds (Z.of_nat k + 1)) as HB.
    destruct (Z.ltb_spec (Z.of_nat (length l)) (24 * days_before (Z.of_nat k + 1 + 1))); [lia|].
    rewrite month_part_interval by lia. reflexivity.
Qed.

(** A series that is too short is undefined behaviour. *)
Lemma sumHoursByMonth_short (l : list T) : Z.of_nat (length l) < 8760 ->
  sumHoursByMonth l = UB.
Proof.
  intros HL. unfold sumHoursByMonth.
  assert (E : forall ks, (forall k, In k ks -> (k < 12)%nat) -> In 11%nat ks ->
    omap (fun month => do a <- vget monthsInHours month; do b <- vget monthsInHours (S month); sumRange l a b) ks = UB).
  { induction ks as [|k ks IH]; intros Hall Hin; [destruct Hin|]. cbn [omap].
    destruct (monthsInHours_spec k) as [E1 E2]; [apply Hall; left; reflexivity|].
    unfold vget at 1 2. rewrite E1, E2. cbn [obind].
    unfold sumRange at 1. destruct (Z.ltb_spec (Z.of_nat (length l)) (24 * days_before (Z.of_nat k + 1 + 1))) as [|Hge]; [reflexivity|].
    cbn [obind]. destruct Hin as [->|Hin].
    - exfalso. change (24 * days_before (Z.of_nat 11 + 1 + 1)) with 8760 in Hge. lia.
    - rewrite IH; [reflexivity| intros j Hj; apply Hall; right; exact Hj | exact Hin]. }
  apply E; [intros k Hk; apply in_seq in Hk; lia | apply in_seq; lia].
Qed.
End Sum.

(** Later proofs use [timeFrame_spec] only; never evaluate the constructor again. *)
#[global] Opaque timeFrame.
