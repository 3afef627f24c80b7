(** Structural facts about HourlyModel::simulate, for every number type. *)
From Coq Require Import ZArith List Bool Lia ZifyBool.
From Verif Require Import Base Num M_TimeFrame M_Params M_Hourly S_Calendar L_Calendar.
Import ListNotations.

Lemma obind_ok {A B} (x : outcome A) (f : A -> outcome B) b :
  obind x f = Ok b -> exists a, x = Ok a /\ f a = Ok b.
Proof. destruct x as [a| |]; cbn; intros H; try discriminate H. exists a. split; [reflexivity|exact H]. Qed.

Lemma omap_inv {A B} (f : A -> outcome B) l : forall r, omap f l = Ok r ->
  length r = length l /\ forall k a, nth_error l k = Some a -> exists b, nth_error r k = Some b /\ f a = Ok b.
Proof.
  induction l as [|a t IH]; intros r H; cbn [omap] in H.
  - injection H as <-. split; [reflexivity|]. intros [|k] a Hk; discriminate Hk.
  - apply obind_ok in H as (b & Hb & H). apply obind_ok in H as (bs & Hbs & H). injection H as <-.
    destruct (IH bs Hbs) as [HL HI]. split; [cbn; lia|].
    intros [|k] a' Hk; cbn in Hk.
    + injection Hk as <-. exists b. split; [reflexivity|exact Hb].
    + exact (HI k a' Hk).
Qed.

Lemma nth_error_zrange lo n k : (k < Z.to_nat n)%nat -> nth_error (zrange lo n) k = Some (lo + Z.of_nat k)%Z.
Proof.
  intros H. unfold zrange. rewrite nth_error_map, nth_error_nth' with (d := O) by (rewrite seq_length; exact H).
  rewrite seq_nth by exact H. reflexivity.
Qed.
Lemma zrange_length lo n : length (zrange lo n) = Z.to_nat n.
Proof. unfold zrange. rewrite map_length, seq_length. reflexivity. Qed.

Lemma map_skipn_nth {A} (l : list A) : forall k i, nth_error (skipn k l) i = nth_error l (k + i).
Proof. induction l as [|a t IH]; intros [|k] i; cbn; try reflexivity. - destruct i; reflexivity. - apply IH. Qed.

Section Shape.
Context {T : Type} {N : Num T}.
Implicit Types (p : params_t T) (ws : list (weather T)).

Lemma yearLoop_length p i tbl frame : forall ws th raw,
  yearLoop p i tbl frame ws th = Ok raw -> length raw = length frame.
Proof.
  induction frame as [|[c|] frame IH]; intros ws th raw H; cbn [yearLoop] in H.
  - injection H as <-. reflexivity.
  - destruct ws as [|w ws]; [discriminate H|].
    destruct (negb (nine (we_sol w))); [discriminate H|].
    apply obind_ok in H as (sc & Hsc & H). destruct (calculateHour p i sc w th) as [r th'].
    apply obind_ok in H as (rs & Hrs & H). injection H as <-. cbn [length]. rewrite (IH _ _ _ Hrs). reflexivity.
  - discriminate H.
Qed.

Lemma timeFrame_length a : timeFrame = Ok a -> Z.of_nat (length a) = 8760%Z.
Proof. destruct timeFrame_spec as (b & E & HL & _). rewrite E. intros [= <-]. exact HL. Qed.

Lemma simulateRaw_length p ws r0 raw r : simulateRaw p ws r0 = Ok (raw, r) -> Z.of_nat (length raw) = 8760%Z.
Proof.
  unfold simulateRaw. intros H. apply obind_ok in H as (tbl & _ & H). apply obind_ok in H as (i & _ & H).
  apply obind_ok in H as (frame & Hf & H). apply obind_ok in H as (raw' & Hr & H). injection H as <- <-.
  rewrite (yearLoop_length _ _ _ _ _ _ _ Hr). apply timeFrame_length, Hf.
Qed.

Lemma resultVectors_shape p raw :
  length (resultVectors p raw) = 13%nat /\ forall v, In v (resultVectors p raw) -> length v = length raw.
Proof.
  split; [reflexivity|]. intros v Hv. unfold resultVectors in Hv. cbn [map In] in Hv.
  repeat match type of Hv with _ \/ _ => destruct Hv as [Hv|Hv] end; try contradiction; subst v;
  try (destruct (neqb _ _)); rewrite ?map_length; reflexivity.
Qed.

Lemma assembleRows_ok n (vs : list (list T)) : (forall v, In v vs -> Z.of_nat (length v) = n) ->
  exists rows, assembleRows n vs = Ok rows /\ length rows = Z.to_nat n /\
    forall i row, nth_error rows i = Some row ->
      length row = length vs /\
      forall k v, nth_error vs k = Some v -> nth_error row k = nth_error v i.
Proof.
  intros HL. unfold assembleRows.
  assert (E : exists rows, omap (fun i => omap (fun v => vget v i) vs) (seq 0 (Z.to_nat n)) = Ok rows).
  { assert (G : forall ks, (forall k, In k ks -> (k < Z.to_nat n)%nat) ->
       exists rows, omap (fun i => omap (fun v => vget v i) vs) ks = Ok rows).
    { induction ks as [|k ks IH]; intros Hk; [eexists; reflexivity|]. cbn [omap].
      assert (G2 : forall vs', incl vs' vs -> exists row, omap (fun v => vget v k) vs' = Ok row).
      { induction vs' as [|v vs' IHv]; intros Hin; [eexists; reflexivity|]. cbn [omap].
        assert (Hkv : (k < length v)%nat).
        { specialize (HL v (Hin v (or_introl eq_refl))). specialize (Hk k (or_introl eq_refl)). lia. }
        unfold vget at 1. destruct (nth_error v k) as [x|] eqn:Ex; [|apply nth_error_None in Ex; lia].
        cbn [obind]. destruct IHv as (row & Erow); [intros y Hy; apply Hin; right; exact Hy|].
        rewrite Erow. eexists; reflexivity. }
      destruct (G2 vs (incl_refl _)) as (row & Erow). rewrite Erow. cbn [obind].
      destruct IH as (rows & Erows); [intros j Hj; apply Hk; right; exact Hj|]. rewrite Erows. eexists; reflexivity. }
    apply G. intros k Hk. apply in_seq in Hk. lia. }
  destruct E as (rows & E). exists rows. split; [exact E|].
  destruct (omap_inv _ _ _ E) as [HLr HI]. rewrite seq_length in HLr. split; [exact HLr|].
  intros i row Hrow. assert (Hi : (i < length rows)%nat) by (apply nth_error_Some; rewrite Hrow; discriminate).
  destruct (HI i i) as (row' & Hrow' & Eo).
  { rewrite nth_error_nth' with (d := O) by (rewrite seq_length; lia). rewrite seq_nth by lia. reflexivity. }
  rewrite Hrow in Hrow'. injection Hrow' as <-.
  destruct (omap_inv _ _ _ Eo) as [HLo HIo]. split; [exact HLo|].
  intros k v Hv. destruct (HIo k v Hv) as (b & Hb & Eb). rewrite Hb.
  unfold vget in Eb. destruct (nth_error v i); [injection Eb as <-; reflexivity|discriminate Eb].
Qed.

(** Equality of two lists from equal entries. *)
Lemma nth_error_ext {A} (l m : list A) : (forall k, nth_error l k = nth_error m k) -> l = m.
Proof.
  revert m. induction l as [|a l IH]; intros [|b m] H; try reflexivity.
  - specialize (H O). discriminate H.
  - specialize (H O). discriminate H.
  - f_equal; [specialize (H O); injection H as <-; reflexivity|]. apply IH. intros k. exact (H (S k)).
Qed.

(** Slot [k] of a list of result rows, as a series. *)
Definition slot_series (k : nat) (rows : list (list T)) : list (option T) := map (fun row => nth_error row k) rows.

(** Both resolutions computed from the same raw results. *)
Lemma simulate_both p ws r0 raw r : simulateRaw p ws r0 = Ok (raw, r) ->
  exists hrows mrows,
    simulate p ws r0 false = Ok (hrows, r) /\ simulate p ws r0 true = Ok (mrows, r) /\
    Z.of_nat (length hrows) = 8760%Z /\ length mrows = 12%nat /\
    (forall row, In row hrows -> length row = 13%nat) /\
    (forall row, In row mrows -> length row = 13%nat) /\
    (forall k v, nth_error (resultVectors p raw) k = Some v ->
       slot_series k hrows = map Some v /\
       slot_series k mrows = map (fun m => Some (accumulate (month_part m v))) (zrange 1 12)).
Proof.
  intros Hraw. pose proof (simulateRaw_length _ _ _ _ _ Hraw) as HL.
  destruct (resultVectors_shape p raw) as [H13 Hlen].
  assert (HLv : forall v, In v (resultVectors p raw) -> Z.of_nat (length v) = 8760%Z)
    by (intros v Hv; rewrite (Hlen v Hv); exact HL).
  destruct (assembleRows_ok 8760 (resultVectors p raw) HLv) as (hrows & Eh & Lh & Ch).
  pose (ms := map (fun v => map (fun m => accumulate (month_part m v)) (zrange 1 12)) (resultVectors p raw)).
  assert (Ems : omap sumHoursByMonth (resultVectors p raw) = Ok ms).
  { apply omap_ok. intros v Hv. apply sumHoursByMonth_ok, HLv, Hv. }
  assert (HLm : forall v, In v ms -> Z.of_nat (length v) = 12%Z).
  { intros v Hv. unfold ms in Hv. apply in_map_iff in Hv as (v' & <- & _).
    rewrite map_length, zrange_length. reflexivity. }
  destruct (assembleRows_ok 12 ms HLm) as (mrows & Em & Lm & Cm).
  assert (Sel : forall n vs rows, length rows = Z.to_nat n -> (forall v, In v vs -> Z.of_nat (length v) = n) ->
     (forall i row, nth_error rows i = Some row -> length row = length vs /\
        forall k v, nth_error vs k = Some v -> nth_error row k = nth_error v i) ->
     forall k v, nth_error vs k = Some v -> slot_series k rows = map Some v).
  { intros n vs rows Ln Lv C k v Hv. apply nth_error_ext. intros i. unfold slot_series. rewrite !nth_error_map.
    specialize (Lv v (nth_error_In _ _ Hv)).
    destruct (nth_error rows i) as [row|] eqn:Er; cbn [option_map].
    - destruct (C i row Er) as [_ C2]. rewrite (C2 k v Hv).
      assert (Hi : (i < length rows)%nat) by (apply nth_error_Some; rewrite Er; discriminate).
      destruct (nth_error v i) as [x|] eqn:Ex; [reflexivity|]. apply nth_error_None in Ex. lia.
    - apply nth_error_None in Er. assert (Ex : nth_error v i = None) by (apply nth_error_None; lia).
      rewrite Ex. reflexivity. }
  exists hrows, mrows.
  unfold simulate. rewrite Hraw. cbn [obind]. unfold finish. rewrite Eh, Ems. cbn [obind]. rewrite Em. cbn [obind].
  split; [reflexivity|]. split; [reflexivity|]. split; [lia|]. split; [rewrite Lm; reflexivity|].
  split; [intros row Hrow; apply In_nth_error in Hrow as (i & Hi); destruct (Ch i row Hi) as [-> _]; exact H13|].
  split; [intros row Hrow; apply In_nth_error in Hrow as (i & Hi); destruct (Cm i row Hi) as [-> _];
          unfold ms; rewrite map_length; exact H13|].
  intros k v Hv. split.
  - exact (Sel 8760%Z _ _ Lh HLv Ch k v Hv).
  - assert (Hvm : nth_error ms k = Some (map (fun m => accumulate (month_part m v)) (zrange 1 12))).
    { unfold ms. rewrite nth_error_map, Hv. reflexivity. }
    rewrite (Sel 12%Z _ _ Lm HLm Cm k _ Hvm). rewrite map_map. reflexivity.
Qed.

(** simulate has no other outcome than the one built from the raw results. *)
Lemma simulate_raw p ws r0 agg rows r : simulate p ws r0 agg = Ok (rows, r) ->
  exists raw, simulateRaw p ws r0 = Ok (raw, r).
Proof.
  unfold simulate. intros H. apply obind_ok in H as ([raw r'] & Hraw & H). apply obind_ok in H as (rows' & _ & H).
  injection H as <- <-. exists raw. exact Hraw.
Qed.

(** ** Well-definedness: no undefined behaviour for complete inputs *)

Lemma sched_at_ok (f : Z -> Z -> sched T) h d : (0 <= h < 24)%Z -> (0 <= d < 7)%Z ->
  sched_at (map (fun h => map (fun d => f h d) (zrange 0 7)) (zrange 0 24)) h d = Ok (f h d).
Proof.
  intros Hh Hd. unfold sched_at.
  destruct (Z.ltb_spec h 0); [lia|]. destruct (Z.ltb_spec d 0); [lia|]. cbn [orb].
  unfold vget. rewrite nth_error_map, nth_error_zrange by lia. cbn [option_map obind].
  rewrite nth_error_map, nth_error_zrange by lia. cbn [option_map].
  rewrite !Z.add_0_l, !Z2Nat.id by lia. reflexivity.
Qed.

Definition ints_ok (po : population_t T) : Prop :=
  ntrunc (po_daysStart po) <> None /\ ntrunc (po_daysEnd po) <> None /\
  ntrunc (po_hoursStart po) <> None /\ ntrunc (po_hoursEnd po) <> None.

Lemma populateSchedules_ok p : ints_ok (pa_population p) -> exists f,
  populateSchedules p = Ok (map (fun h => map (fun d => f h d) (zrange 0 7)) (zrange 0 24)) /\
  forall ds de hs he, ntrunc (po_daysStart (pa_population p)) = Some ds ->
    ntrunc (po_daysEnd (pa_population p)) = Some de -> ntrunc (po_hoursStart (pa_population p)) = Some hs ->
    ntrunc (po_hoursEnd (pa_population p)) = Some he -> f = sched_cell p ds de hs he.
Proof.
  intros (H1 & H2 & H3 & H4). unfold populateSchedules, cast_int.
  destruct (ntrunc (po_daysStart _)) as [ds|] eqn:E1; [|contradiction].
  destruct (ntrunc (po_daysEnd _)) as [de|] eqn:E2; [|contradiction].
  destruct (ntrunc (po_hoursStart _)) as [hs|] eqn:E3; [|contradiction].
  destruct (ntrunc (po_hoursEnd _)) as [he|] eqn:E4; [|contradiction].
  cbn [obind]. exists (sched_cell p ds de hs he). split; [reflexivity|]. congruence.
Qed.

Lemma yearLoop_ok p i f frame : forall ws th,
  (length frame <= length ws)%nat -> (forall w, In w ws -> nine (we_sol w) = true) ->
  (forall oc, In oc frame -> exists c, oc = Some c /\ (0 <= tc_hour c < 24)%Z /\ (0 <= tc_dow c < 7)%Z) ->
  exists raw, yearLoop p i (map (fun h => map (fun d => f h d) (zrange 0 7)) (zrange 0 24)) frame ws th = Ok raw.
Proof.
  induction frame as [|oc frame IH]; intros ws th HL Hn Hc; [eexists; reflexivity|].
  destruct (Hc oc (or_introl eq_refl)) as (c & -> & Hh & Hd).
  destruct ws as [|w ws]; [cbn in HL; lia|]. cbn [yearLoop].
  rewrite (Hn w (or_introl eq_refl)). cbn [negb].
  rewrite sched_at_ok by assumption. cbn [obind].
  destruct (calculateHour p i _ w th) as [r th'].
  destruct (IH ws th') as (raw & Eraw).
  - cbn in HL. lia.
  - intros w' Hw'. apply Hn. right. exact Hw'.
  - intros oc' Hoc'. apply Hc. right. exact Hoc'.
  - rewrite Eraw. eexists; reflexivity.
Qed.

Lemma timeFrame_cells a : timeFrame = Ok a ->
  forall oc, In oc a -> exists c, oc = Some c /\ (0 <= tc_hour c < 24)%Z /\ (0 <= tc_dow c < 7)%Z.
Proof.
  destruct timeFrame_spec as (b & E & HL & HC). rewrite E. intros [= <-] oc Hoc.
  apply In_nth_error in Hoc as (k & Hk).
  assert (Hlt : (k < length b)%nat) by (apply nth_error_Some; rewrite Hk; discriminate).
  destruct (HC (Z.of_nat k)) as (c & Hc & E1 & _ & E3 & _); [lia|].
  rewrite Nat2Z.id in Hc. rewrite Hk in Hc. injection Hc as ->.
  exists c. split; [reflexivity|]. rewrite E1, E3.
  split; [exact (Z.mod_pos_bound _ 24 eq_refl)|exact (Z.mod_pos_bound _ 7 eq_refl)].
Qed.

Lemma simulateRaw_ok p ws r0 : ints_ok (pa_population p) -> structure_nine (pa_structure p) = true ->
  (8760 <= Z.of_nat (length ws))%Z -> (forall w, In w ws -> nine (we_sol w) = true) ->
  exists raw r, simulateRaw p ws r0 = Ok (raw, r).
Proof.
  intros Hi Hn HL Hw. unfold simulateRaw.
  destruct (populateSchedules_ok p Hi) as (f & Ef & _). rewrite Ef. cbn [obind].
  unfold initialize. rewrite Hn. cbn [negb obind].
  destruct timeFrame as [frame| |] eqn:Etf.
  2,3: exfalso; destruct timeFrame_spec as (b & E & _); rewrite E in Etf; discriminate Etf.
  cbn [obind]. pose proof (timeFrame_length _ Etf) as HLf.
  edestruct (yearLoop_ok p) as (raw & Eraw); [| exact Hw | exact (timeFrame_cells _ Etf) | rewrite Eraw; eexists; eexists; reflexivity].
  lia.
Qed.

(** ** Causality *)

Lemma yearLoop_causal p i tbl frame : forall n ws ws' th raw raw',
  firstn n ws = firstn n ws' ->
  yearLoop p i tbl frame ws th = Ok raw -> yearLoop p i tbl frame ws' th = Ok raw' ->
  firstn n raw = firstn n raw'.
Proof.
  induction frame as [|[c|] frame IH]; intros n ws ws' th raw raw' Hp H H'; cbn [yearLoop] in H, H'.
  - injection H as <-. injection H' as <-. reflexivity.
  - destruct n as [|n]; [reflexivity|].
    destruct ws as [|w ws]; [discriminate H|]. destruct ws' as [|w' ws']; [discriminate H'|].
    cbn [firstn] in Hp. injection Hp as <- Hp.
    destruct (negb (nine (we_sol w))); [discriminate H|].
    apply obind_ok in H as (sc & Hsc & H). apply obind_ok in H' as (sc' & Hsc' & H').
    rewrite Hsc in Hsc'. injection Hsc' as <-.
    destruct (calculateHour p i sc w th) as [r th'].
    apply obind_ok in H as (rs & Hrs & H). apply obind_ok in H' as (rs' & Hrs' & H').
    injection H as <-. injection H' as <-. cbn [firstn]. f_equal. exact (IH n _ _ _ _ _ Hp Hrs Hrs').
  - discriminate H.
Qed.

Lemma simulateRaw_causal p ws ws' r0 n raw raw' r r' :
  firstn n ws = firstn n ws' ->
  simulateRaw p ws r0 = Ok (raw, r) -> simulateRaw p ws' r0 = Ok (raw', r') ->
  firstn n raw = firstn n raw' /\ r = r'.
Proof.
  unfold simulateRaw. intros Hp H H'.
  apply obind_ok in H as (tbl & Ht & H). rewrite Ht in H'. cbn [obind] in H'.
  apply obind_ok in H as (i & Hi & H). rewrite Hi in H'. cbn [obind] in H'.
  apply obind_ok in H as (fr & Hf & H). rewrite Hf in H'. cbn [obind] in H'.
  apply obind_ok in H as (rw & Hr & H). apply obind_ok in H' as (rw' & Hr' & H').
  injection H as <- <-. injection H' as <- <-. split; [|reflexivity].
  exact (yearLoop_causal _ _ _ _ _ _ _ _ _ _ Hp Hr Hr').
Qed.

(** ** What a given hour computes *)

Lemma yearLoop_nth p i tbl frame : forall ws th raw, yearLoop p i tbl frame ws th = Ok raw ->
  forall k r, nth_error raw k = Some r ->
  exists c w sc thk, nth_error frame k = Some (Some c) /\ nth_error ws k = Some w /\
    nine (we_sol w) = true /\ sched_at tbl (tc_hour c) (tc_dow c) = Ok sc /\ r = fst (calculateHour p i sc w thk).
Proof.
  induction frame as [|[c|] frame IH]; intros ws th raw H k r Hk; cbn [yearLoop] in H.
  - injection H as <-. destruct k; discriminate Hk.
  - destruct ws as [|w ws]; [discriminate H|].
    destruct (nine (we_sol w)) eqn:En; cbn [negb] in H; [|discriminate H].
    apply obind_ok in H as (sc & Hsc & H). destruct (calculateHour p i sc w th) as [r1 th'] eqn:Ec.
    apply obind_ok in H as (rs & Hrs & H). injection H as <-.
    destruct k as [|k]; cbn [nth_error] in Hk |- *.
    + injection Hk as <-. exists c, w, sc, th. rewrite Ec. repeat split; assumption.
    + exact (IH _ _ _ Hrs k r Hk).
  - discriminate H.
Qed.

End Shape.
