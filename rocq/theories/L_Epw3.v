(** The concrete cases of the weather file properties. *)
From Coq Require Import Ascii String ZArith Lia Reals Lra.
From Verif Require Import Base Num Xr Text M_Text M_TimeFrame M_Properties M_Epw S_Text S_Epw L_Text L_Xr L_Office L_Epw L_Epw2 E_Decimal E_EpwFile.
Open Scope nat_scope.
Open Scope list_scope.

Definition fresh : epw xr := newEpw.

Lemma epw_lines : forall ls, Forall no_newline ls -> is_lines (ended ls) ls.
Proof. intros ls H. split; [exact H|left; reflexivity]. Qed.

Ltac no_nl := unfold no_newline, newline; vm_compute; let H := fresh in intros H; repeat (destruct H as [H|H]; [discriminate H|]); destruct H.

Lemma header_lines : Forall no_newline epwHeader.
Proof. repeat (apply Forall_cons; [no_nl|]). apply Forall_nil. Qed.
Lemma sample_lines : is_lines epwSample (epwHeader ++ [epwRecord1; epwRecord2]).
Proof. apply epw_lines. apply Forall_app. split; [apply header_lines|]. repeat (apply Forall_cons; [no_nl|]). apply Forall_nil. Qed.
Lemma cut_lines : is_lines epwCut (epwHeader ++ [epwShort]).
Proof. apply epw_lines. apply Forall_app. split; [apply header_lines|]. repeat (apply Forall_cons; [no_nl|]). apply Forall_nil. Qed.

(** The fields of a line, computed. *)
Fixpoint split_on (c : ascii) (cur s : text) : list text :=
  match s with
  | [] => [cur]
  | x :: r => if Ascii.eqb x c then cur :: split_on c [] r else split_on c (cur ++ [x]) r
  end.
Lemma split_on_cons : forall c s cur, exists f r, split_on c cur s = f :: r.
Proof.
  intros c. induction s as [|x s IH]; intros cur; [exists cur, []; reflexivity|].
  cbn [split_on]. destruct (Ascii.eqb x c); [eexists _, _; reflexivity|apply IH].
Qed.
Lemma split_on_ok : forall s cur, ~ In ","%char cur ->
  split_on "," cur s <> [] /\ cur ++ s = joined "," (split_on "," cur s) /\ Forall (fun f => ~ In ","%char f) (split_on "," cur s).
Proof.
  induction s as [|x s IH]; intros cur H.
  - split; [discriminate|]. split; [apply app_nil_r|]. constructor; [exact H|constructor].
  - cbn [split_on]. destruct (Ascii.eqb_spec x ",") as [->|NE].
    + destruct (IH [] (fun I => I)) as (A&B&C). split; [discriminate|]. split; [|constructor; [exact H|exact C]].
      destruct (split_on_cons ","%char s []) as (f&r&E). rewrite E in B |- *. cbn [joined app] in B |- *. rewrite <- B. reflexivity.
    + destruct (IH (cur ++ [x])) as (A&B&C).
      * intros I. apply in_app_iff in I. destruct I as [I|[I|[]]]; [exact (H I)|congruence].
      * split; [exact A|]. split; [|exact C]. rewrite <- B, <- app_assoc. reflexivity.
Qed.
Lemma split_fields : forall line, has_fields line (split_on "," [] line).
Proof. intros line. destruct (split_on_ok line []) as (A&B&C); [intros []|]. split; [exact A|]. split; [exact B|exact C]. Qed.

Lemma Rtoint_opp_IZR z : (0 <= z <= int_max)%Z -> Rtoint (- IZR z) = Some (- z)%Z.
Proof.
  intros H. destruct (Z.eq_dec z 0) as [->|NZ].
  - replace (- 0)%R with (IZR 0) by lra. apply Rtoint_IZR. unfold int_max. lia.
  - unfold Rtoint, Rtrunc. destruct (Rlt_dec (- IZR z) 0) as [L|L].
    + rewrite Ropp_involutive, Int_part_IZR. unfold int_min, int_max in *.
      destruct (Z.leb_spec (-2147483648) (-z)); [|lia]. destruct (Z.leb_spec (-z) 2147483647); [|lia]. reflexivity.
    + exfalso. apply L. assert (0 < IZR z)%R by (apply IZR_lt; lia). lra.
Qed.
Lemma zone_six : ntrunc (rd_atof (@decimal_reader xr _) (tx "-6.0")) = Some (-6)%Z.
Proof.
  change (rd_atof (@decimal_reader xr _) (tx "-6.0")) with (Fin (- Rlit 6 1)).
  change (Rtoint (- Rlit 6 1) = Some (-6)%Z). unfold Rlit. replace (- (6 / 1))%R with (- IZR 6)%R by lra.
  apply (Rtoint_opp_IZR 6). unfold int_max. lia.
Qed.

Lemma header_loads : forall content ls (e : epw xr), is_lines content (epwHeader ++ ls) -> List.length (ep_data e) = 7 ->
  exists e', loadFile decimal_reader (Some content) e = Ok e'.
Proof.
  intros content ls e H L.
  destruct (C36_file_l decimal_reader content (epwHeader ++ ls) e (hd [] epwHeader) (split_on "," [] (hd [] epwHeader))
    (tx "41.98") (tx "-87.92") (tx "-6.0") (tx "Chicago Ohare Intl Ap") (tx "725300") (-6)%Z L H) as (e'&E&_);
    try reflexivity; [apply split_fields|exact zone_six|]. exists e'. exact E.
Qed.

Lemma C37_missing_field_refuted_l : exists content ls line fs e',
  is_lines content ls /\ nth_error ls 8 = Some line /\ has_fields line fs /\ List.length fs = 8 /\
  loadFile decimal_reader (Some content) (newEpw : epw xr) = Ok e' /\
  cell (ep_data e') WSPD 0 = Some (Fin 16.5).
Proof.
  destruct (header_loads epwCut [epwShort] newEpw cut_lines eq_refl) as (e'&E).
  exists epwCut, (epwHeader ++ [epwShort]), epwShort, (split_on "," [] epwShort), e'.
  split; [exact cut_lines|]. split; [reflexivity|]. split; [apply split_fields|]. split; [reflexivity|]. split; [exact E|].
  assert (I : In (WSPD, 22) epw_format) by (cbn; repeat (try (left; reflexivity); right)).
  assert (LT : List.length (split_on "," [] epwShort) < 22) by (vm_compute; lia).
  rewrite (C37_missing_field_l decimal_reader epwCut (epwHeader ++ [epwShort]) newEpw e' 0 epwShort (split_on "," [] epwShort) WSPD 22
    eq_refl cut_lines E eq_refl eq_refl (split_fields _) I LT).
  reflexivity.
Qed.

Lemma C37_reload_refuted_l : exists content1 content2 ls2 e1 e2,
  is_lines content2 ls2 /\ List.length ls2 < 8 + 1 /\
  loadFile decimal_reader (Some content1) (newEpw : epw xr) = Ok e1 /\ loadFile decimal_reader (Some content2) e1 = Ok e2 /\
  cell (ep_data e2) WSPD 1 = Some (Fin 2.1) /\
  exists e', loadFile decimal_reader (Some content2) (newEpw : epw xr) = Ok e' /\ cell (ep_data e') WSPD 1 = Some (Fin 0).
Proof.
  assert (HL : is_lines (ended epwHeader) (epwHeader ++ [])) by (rewrite app_nil_r; apply epw_lines, header_lines).
  destruct (header_loads epwSample _ newEpw sample_lines eq_refl) as (e1&E1).
  assert (L1 : List.length (ep_data e1) = 7) by (apply (loadFile_columns decimal_reader (Some epwSample) newEpw); [reflexivity|exact E1]).
  destruct (header_loads (ended epwHeader) [] e1 HL L1) as (e2&E2).
  destruct (header_loads (ended epwHeader) [] newEpw HL eq_refl) as (e'&E').
  exists epwSample, (ended epwHeader), epwHeader, e1, e2. rewrite app_nil_r in HL.
  split; [exact HL|]. split; [cbn; lia|]. split; [exact E1|]. split; [exact E2|].
  assert (C1 : cell (ep_data e1) WSPD 1 = Some (Fin 2.1)).
  { pose proof (C36_file_l decimal_reader epwSample (epwHeader ++ [epwRecord1; epwRecord2]) newEpw (hd [] epwHeader) (split_on "," [] (hd [] epwHeader))
      (tx "41.98") (tx "-87.92") (tx "-6.0") (tx "Chicago Ohare Intl Ap") (tx "725300") (-6)%Z eq_refl sample_lines eq_refl (split_fields _) eq_refl eq_refl eq_refl eq_refl eq_refl zone_six)
      as (f&F&_&_&_&_&C). assert (f = e1) as -> by congruence.
    rewrite (C 1 epwRecord2 (split_on "," [] epwRecord2) WSPD 22 (tx "2.1")); try reflexivity; [apply split_fields|cbn; repeat (try (left; reflexivity); right)]. }
  split.
  - apply (C37_short_file_l decimal_reader (ended epwHeader) epwHeader e1 e2 1 WSPD (Fin 2.1) L1 HL E2 eq_refl); [cbn; lia|exact C1|unfold WSPD; lia].
  - exists e'. split; [exact E'|].
    pose proof (loadFile_spec decimal_reader (ended epwHeader) newEpw eq_refl) as P.
    destruct (header decimal_reader (hd [] (goodlines [] (ended epwHeader)))) as [site|]; [|congruence].
    destruct P as (f&F&_&_&_&_&C). assert (f = e') as -> by congruence. pose proof slices_Z as SZ.
    rewrite C by (unfold WSPD; lia). rewrite (proj2 (nth_error_None _ _)).
    + change (Some (Fin (Rlit 0 1)) = Some (Fin 0)). f_equal. f_equal. unfold Rlit. lra.
    + destruct (goodlines_is_lines _ _ HL) as [->|(->&_)]; cbn; lia.
Qed.

Lemma sample_row : exists e', loadFile decimal_reader (Some epwSample) (newEpw : epw xr) = Ok e' /\
  map (fun c => cell (ep_data e') c 1) [DBT; DPT; RH; EGH; EB; ED; WSPD] =
    map (fun x => Some (Fin x)) [- Rlit 117 10; - Rlit 156 10; Rlit 74 1; Rlit 5 1; Rlit 6 1; Rlit 7 1; Rlit 21 10]%R /\
  ep_site e' = Some (Fin (Rlit 4198 100), Fin (- Rlit 8792 100), (-6)%Z).
Proof.
  pose proof (C36_file_l decimal_reader epwSample (epwHeader ++ [epwRecord1; epwRecord2]) newEpw (hd [] epwHeader) (split_on "," [] (hd [] epwHeader))
      (tx "41.98") (tx "-87.92") (tx "-6.0") (tx "Chicago Ohare Intl Ap") (tx "725300") (-6)%Z eq_refl sample_lines eq_refl (split_fields _) eq_refl eq_refl eq_refl eq_refl eq_refl zone_six)
      as (f&F&_&S&_&_&C).
  exists f. split; [exact F|]. split; [|rewrite S; reflexivity].
  assert (Q : forall col pos t, In (col, pos) epw_format -> nth_error (split_on "," [] epwRecord2) (pos - 1) = Some t -> cell (ep_data f) col 1 = Some (rd_atof decimal_reader t)).
  { intros col pos t I E. apply (C 1 epwRecord2 (split_on "," [] epwRecord2) col pos t); try assumption; try reflexivity. apply split_fields. }
  cbn [map]. unfold DBT, DPT, RH, EGH, EB, ED, WSPD.
  rewrite (Q 0 7 (tx "-11.7")), (Q 1 8 (tx "-15.6")), (Q 2 9 (tx "74")), (Q 3 14 (tx "5")), (Q 4 15 (tx "6")), (Q 5 16 (tx "7")), (Q 6 22 (tx "2.1"));
    try reflexivity; cbn; repeat (try (left; reflexivity); right).
Qed.
