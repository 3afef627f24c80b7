(** Lemmas about stringSplit and the weather summary text. *)
From Coq Require Import Ascii String ZArith Lia.
From Verif Require Import Base Num Text M_Text M_TimeFrame M_Properties M_Epw M_Solar M_IsoText S_Text S_Epw S_Solar S_Weather L_Text L_Properties L_HourlyShape L_Epw L_Solar L_Solar2 L_Solar3 L_Solar5.
Open Scope nat_scope.
Open Scope list_scope.

(** ** stringSplit *)
Lemma splitScan_field : forall sep k f cur rest, ~ In sep f -> splitScan sep k cur (f ++ rest) = splitScan sep k (cur ++ f) rest.
Proof.
  induction f as [|c f IH]; intros cur rest H; [cbn [app]; rewrite app_nil_r; reflexivity|].
  cbn [app splitScan]. destruct (Ascii.eqb_spec c sep) as [->|NE]; [exfalso; apply H; left; reflexivity|].
  rewrite IH by (intros I; apply H; right; exact I). rewrite <- app_assoc. reflexivity.
Qed.
Lemma splitScan_sep : forall sep cur rest, splitScan sep true cur (sep :: rest) = cur :: splitScan sep true [] rest.
Proof. intros. cbn [splitScan]. rewrite Ascii.eqb_refl. reflexivity. Qed.
Lemma joined_cons : forall sep f g r, joined sep (f :: g :: r) = f ++ sep :: joined sep (g :: r).
Proof. reflexivity. Qed.
Lemma splitScan_joined : forall sep fs cur l, Forall (fun f => ~ In sep f) (fs ++ [l]) -> (fs = [] -> cur ++ l <> []) -> (fs <> [] -> l <> []) ->
  splitScan sep true cur (joined sep (fs ++ [l])) = match fs with [] => [cur ++ l] | f :: r => (cur ++ f) :: r ++ [l] end.
Proof.
  intros sep fs. induction fs as [|f r IH]; intros cur l F H1 H2.
  - cbn [app joined]. inversion F; subst. replace l with (l ++ []) at 1 by apply app_nil_r. rewrite splitScan_field by assumption.
    cbn [splitScan]. specialize (H1 eq_refl). destruct (cur ++ l) eqn:E; [congruence|reflexivity].
  - assert (NE : l <> []) by (apply H2; discriminate). inversion F; subst.
    assert (J : joined sep ((f :: r) ++ [l]) = f ++ sep :: joined sep (r ++ [l])) by (destruct r; reflexivity).
    rewrite J, splitScan_field, splitScan_sep by assumption. f_equal. rewrite IH; [|assumption|intros _; exact NE|intros _; exact NE].
    destruct r; reflexivity.
Qed.
Lemma stringSplit_joined : forall sep fs l, Forall (fun f => ~ In sep f) (fs ++ [l]) -> l <> [] ->
  stringSplit (joined sep (fs ++ [l])) sep true = fs ++ [l].
Proof.
  intros sep fs l F NE. unfold stringSplit.
  assert (S : splitScan sep true [] (joined sep (fs ++ [l])) = fs ++ [l]).
  { rewrite splitScan_joined; [destruct fs; reflexivity|exact F|intros _; exact NE|intros _; exact NE]. }
  destruct (joined sep (fs ++ [l])) eqn:E; [|exact S]. cbn [splitScan] in S. exact S.
Qed.
Lemma splitScan_rejoin : forall sep rest cur, ~ In sep cur ->
  Forall (fun f => ~ In sep f) (splitScan sep true cur rest) /\
  (joined sep (splitScan sep true cur rest) = cur ++ rest \/
   joined sep (splitScan sep true cur rest) ++ [sep] = cur ++ rest) /\
  (rest <> [] -> splitScan sep true cur rest <> []).
Proof.
  intros sep rest. induction rest as [|c t IH]; intros cur H.
  - cbn [splitScan]. split; [|split; [|congruence]].
    + destruct cur; repeat constructor. exact H.
    + left. destruct cur; [reflexivity|]. cbn [joined]. rewrite app_nil_r. reflexivity.
  - cbn [splitScan]. destruct (Ascii.eqb_spec c sep) as [->|NE].
    + cbn [orb app]. destruct (IH [] (fun x => x)) as (A&B&C). split; [constructor; assumption|]. split; [|discriminate].
      destruct t as [|d t'].
      * cbn [splitScan joined app]. right. reflexivity.
      * assert (D : splitScan sep true [] (d :: t') <> []) by (apply C; discriminate).
        destruct (splitScan sep true [] (d :: t')) as [|f r] eqn:E; [congruence|]. rewrite joined_cons.
        destruct B as [B|B]; [left|right]; cbn [app] in B; [rewrite B; reflexivity|]. rewrite <- app_assoc. cbn [app]. rewrite B. reflexivity.
    + destruct (IH (cur ++ [c])) as (A&B&C). { intros I. apply in_app_iff in I. destruct I as [I|[I|[]]]; [exact (H I)|congruence]. }
      split; [exact A|]. split; [rewrite <- !app_assoc in B; exact B|]. intros _. destruct t as [|d t'].
      * cbn [splitScan]. destruct cur; discriminate.
      * apply C. discriminate.
Qed.
Lemma stringSplit_rejoin : forall sep line,
  Forall (fun f => ~ In sep f) (stringSplit line sep true) /\
  (joined sep (stringSplit line sep true) = line \/ joined sep (stringSplit line sep true) ++ [sep] = line).
Proof.
  intros sep [|c t]; [split; [constructor|left; reflexivity]|]. unfold stringSplit.
  destruct (splitScan_rejoin sep (c :: t) [] (fun x => x)) as (A&B&_). split; assumption.
Qed.
Lemma splitScan_drop : forall sep rest cur, splitScan sep false cur rest = non_empty (splitScan sep true cur rest).
Proof.
  intros sep rest. induction rest as [|c t IH]; intros cur.
  - cbn [splitScan]. destruct cur; reflexivity.
  - cbn [splitScan]. destruct (Ascii.eqb c sep); [|apply IH]. cbn [orb]. rewrite IH. destruct cur; reflexivity.
Qed.
Lemma stringSplit_drop : forall sep line, stringSplit line sep false = non_empty (stringSplit line sep true).
Proof. intros sep [|c t]; [reflexivity|]. apply splitScan_drop. Qed.

(** ** Lines *)
Lemma goodlines_line : forall l cur s, ~ In newline l -> goodlines cur (l ++ newline :: s) = (cur ++ l) :: goodlines [] s.
Proof.
  induction l as [|c l IH]; intros cur s H.
  - cbn [app goodlines]. rewrite Ascii.eqb_refl, app_nil_r. reflexivity.
  - cbn [app goodlines]. destruct (Ascii.eqb_spec c newline) as [->|NE]; [exfalso; apply H; left; reflexivity|].
    rewrite IH by (intros I; apply H; right; exact I). rewrite <- app_assoc. reflexivity.
Qed.
Lemma goodlines_ended : forall ls, Forall no_newline ls -> goodlines [] (ended ls) = ls ++ [[]].
Proof.
  induction ls as [|l ls IH]; intros F; [reflexivity|]. inversion F; subst. unfold ended. cbn [map concat]. rewrite <- app_assoc. cbn [app].
  rewrite goodlines_line by assumption. cbn [app]. f_equal. apply IH. assumption.
Qed.
Lemma ended_app : forall a b, ended a ++ ended b = ended (a ++ b).
Proof. intros a b. unfold ended. rewrite map_app, concat_app. reflexivity. Qed.

Section IsoText.
Context {T : Type} {N : Num T}.
Variable fmt : T -> text.
Variable rd : reader T.
Hypothesis W : writes_numbers fmt.
Let got (x : T) : option T := Some (rd_atof rd (fmt x)).

(** The line of a row without its end. *)
Definition row_line (i : nat) (values : list T) : text := showInt i ++ concat (map (fun x => ","%char :: fmt x) values).
Lemma row_joined : forall i values, row_line i values = joined "," (showInt i :: map fmt values).
Proof.
  intros i values. unfold row_line. revert i. enough (G : forall h : text, h ++ concat (map (fun x => ","%char :: fmt x) values) = joined "," (h :: map fmt values)) by (intros; apply G).
  induction values as [|x v IH]; intros h; [cbn [map concat joined]; apply app_nil_r|]. cbn [map concat]. rewrite joined_cons, <- IH. reflexivity.
Qed.
Lemma showInt_clean : forall i, i < 12 -> showInt i <> [] /\ ~ In ","%char (showInt i) /\ ~ In newline (showInt i) /\ hd "#"%char (showInt i) <> "#"%char.
Proof.
  intros i H. do 12 (destruct i as [|i]; [cbv; repeat split; try discriminate; intros I; decompose [or] I; try discriminate; try contradiction|]). lia.
Qed.
Lemma row_no_newline : forall i values, i < 12 -> no_newline (row_line i values).
Proof.
  intros i values H. unfold no_newline, row_line. intros I. apply in_app_iff in I. destruct I as [I|I]; [exact (proj1 (proj2 (proj2 (showInt_clean i H))) I)|].
  apply in_concat in I. destruct I as (l&L&I). apply in_map_iff in L. destruct L as (x&<-&_). destruct I as [I|I]; [discriminate|].
  exact (proj2 (proj2 (W x)) I).
Qed.
Lemma split_row : forall i x values, i < 12 -> stringSplit (row_line i (x :: values)) "," true = showInt i :: map fmt (x :: values).
Proof.
  intros i x values H. rewrite row_joined.
  assert (E : exists fs l, showInt i :: map fmt (x :: values) = fs ++ [fmt l]).
  { destruct (exists_last (l := x :: values)) as (v&l&->); [discriminate|]. exists (showInt i :: map fmt v), l. rewrite map_app. reflexivity. }
  destruct E as (fs&l&E). rewrite E. apply stringSplit_joined; [|apply W]. change (Forall (fun f : text => ~ In ","%char f) (fs ++ [fmt l])). rewrite <- E. constructor; [apply showInt_clean; exact H|].
  apply Forall_forall. intros f I. apply in_map_iff in I. destruct I as (y&<-&_). apply W.
Qed.
Lemma isoRow_line : forall i values, isoRow fmt i values = row_line i values ++ [newline].
Proof. intros. unfold isoRow, row_line. rewrite <- app_assoc. reflexivity. Qed.
Lemma omap_map : forall A B (f : A -> outcome B) (g : A -> B) l, (forall a, In a l -> f a = Ok (g a)) -> omap f l = Ok (map g l).
Proof.
  intros A B f g l. induction l as [|a l IH]; intros H; [reflexivity|]. cbn [omap map]. rewrite H by (left; reflexivity). cbn [obind].
  rewrite IH by (intros b I; apply H; right; exact I). reflexivity.
Qed.
Lemma isoTable_lines : forall (name : text) row (vals : nat -> list T), (forall i, i < 12 -> row i = Ok (vals i)) ->
  isoTable fmt name row = Ok (ended (name :: map (fun i => row_line i (vals i)) (seq 0 12))).
Proof.
  intros name row vals H. unfold isoTable. rewrite (omap_map _ _ _ (fun i => row_line i (vals i) ++ [newline])).
  - cbn [obind]. f_equal. unfold ended. cbn [map concat]. rewrite <- app_assoc. rewrite map_map. reflexivity.
  - intros i I. apply in_seq in I. rewrite H by lia. cbn [obind]. rewrite isoRow_line. reflexivity.
Qed.

(** ** Filling one row *)
Lemma upd_app : forall A (pre : list A) y rest x, upd (pre ++ y :: rest) (length pre) x = pre ++ x :: rest.
Proof. induction pre as [|p pre IH]; intros; [reflexivity|]. cbn [app length upd]. rewrite IH. reflexivity. Qed.
Lemma fillRow_ok : forall values pre rest limit, length rest = length values -> length pre + length values = limit ->
  fillRow rd (map fmt values) (length pre) limit (pre ++ rest) = Ok (pre ++ map got values).
Proof.
  induction values as [|x v IH]; intros pre rest limit HR HL.
  - destruct rest; [|discriminate]. reflexivity.
  - destruct rest as [|y rest]; [discriminate|]. cbn [map fillRow]. cbn [length] in HL, HR. rewrite (proj2 (Nat.ltb_lt _ _)) by lia.
    rewrite vset_ok by (rewrite app_length; cbn [length]; lia). cbn [obind]. rewrite upd_app.
    replace (pre ++ Some (rd_atof rd (fmt x)) :: rest) with ((pre ++ [got x]) ++ rest) by (rewrite <- app_assoc; reflexivity).
    replace (S (length pre)) with (length (pre ++ [got x])) by (rewrite app_length; cbn; lia).
    rewrite IH; [rewrite <- app_assoc; reflexivity|lia|rewrite app_length; cbn; lia].
Qed.
Lemma fillMatrix_ok : forall i values limit m, length values = limit -> i < length m -> Forall (fun r => length r = limit) m ->
  fillMatrix rd (showInt i :: map fmt values) limit i m = Ok (upd m i (map got values)).
Proof.
  intros i values limit m HV HI F. unfold fillMatrix. cbn [tl]. rewrite (vget_nth _ m i []) by exact HI. cbn [obind].
  assert (L : length (nth i m []) = limit) by (rewrite Forall_forall in F; apply F, nth_In; exact HI).
  pose proof (fillRow_ok values [] (nth i m []) limit ltac:(lia) ltac:(cbn [length]; lia)) as P. cbn [length app] in P. rewrite P. cbn [obind]. apply vset_ok. exact HI.
Qed.
Lemma fillVector_ok : forall i x v, i < length v -> fillVector rd (showInt i :: map fmt [x]) i v = Ok (upd v i (got x)).
Proof. intros i x v H. unfold fillVector. cbn [map vget nth_error obind]. apply vset_ok. exact H. Qed.

(** ** Reading a table *)
Definition iso_shape (w : weather T) : Prop :=
  (length (wd_msolar w) = 12 /\ Forall (fun r => length r = 8) (wd_msolar w)) /\
  (length (wd_mhdbt w) = 12 /\ Forall (fun r => length r = 24) (wd_mhdbt w)) /\
  (length (wd_mhEgh w) = 12 /\ Forall (fun r => length r = 24) (wd_mhEgh w)) /\
  length (wd_mEgh w) = 12 /\ length (wd_mdbt w) = 12 /\ length (wd_mwind w) = 12.
Lemma isoLine_row : forall state i x values w w', i < 12 -> fillTable rd state i (showInt i :: map fmt (x :: values)) w = Ok w' ->
  isoLine rd (state, i, w) (row_line i (x :: values)) = Ok (state, S i, w').
Proof.
  intros state i x values w w' H F. unfold isoLine.
  assert (HD : exists c t, row_line i (x :: values) = c :: t /\ c <> "#"%char).
  { destruct (showInt_clean i H) as (A&_&_&D). unfold row_line. destruct (showInt i) as [|c t]; [congruence|]. eexists _, _. split; [reflexivity|exact D]. }
  destruct HD as (c&t&E&NE). pose proof (split_row i x values H) as S. rewrite E in *. rewrite S. cbn [map].
  rewrite (proj2 (Nat.ltb_lt _ _) H). cbn [map] in F. rewrite F. cbn [obind].
  destruct c as [[|] [|] [|] [|] [|] [|] [|] [|]]; try reflexivity. contradiction NE; reflexivity.
Qed.
Lemma isoLine_rows : forall state (vals : nat -> list T) (F : nat -> weather T -> weather T) n i w,
  (forall j, vals j <> []) -> (forall j w, j < 12 -> iso_shape w -> fillTable rd state j (showInt j :: map fmt (vals j)) w = Ok (F j w) /\ iso_shape (F j w)) ->
  i + n <= 12 -> iso_shape w ->
  ofold (isoLine rd) (map (fun j => row_line j (vals j)) (seq i n)) (state, i, w) = Ok (state, i + n, fold_left (fun w j => F j w) (seq i n) w).
Proof.
  intros state vals F n. induction n as [|n IH]; intros i w NE H L SH.
  - cbn [seq map ofold fold_left]. rewrite Nat.add_0_r. reflexivity.
  - cbn [seq map ofold fold_left]. destruct (H i w ltac:(lia) SH) as [E SH']. destruct (vals i) as [|x v] eqn:V; [exfalso; exact (NE i V)|].
    rewrite (isoLine_row state i x v w (F i w)) by (try lia; exact E). cbn [obind]. rewrite (IH (S i) (F i w) NE H ltac:(lia) SH'). replace (S i + n) with (i + S n) by lia. reflexivity.
Qed.
Definition header (name : text) : Prop := exists c t, name = c :: t /\ c <> "#"%char /\ ~ In ","%char name /\ ~ In newline name.
Lemma isoLine_header : forall st i w name, header name -> isoLine rd (st, i, w) name = Ok (weatherState name, 0, w).
Proof.
  intros st i w name (c&t&E&NE&NC&_). unfold isoLine.
  assert (S : stringSplit name "," true = [name]).
  { pose proof (stringSplit_joined ","%char [] name) as J. cbn [app joined] in J. apply J; [repeat constructor; exact NC|rewrite E; discriminate]. }
  rewrite S. subst name. destruct c as [[|] [|] [|] [|] [|] [|] [|] [|]]; try reflexivity. contradiction NE; reflexivity.
Qed.
Lemma table_read : forall state name (vals : nat -> list T) F st i w, header name -> weatherState name = state ->
  (forall j, vals j <> []) -> (forall j w, j < 12 -> iso_shape w -> fillTable rd state j (showInt j :: map fmt (vals j)) w = Ok (F j w) /\ iso_shape (F j w)) ->
  iso_shape w ->
  ofold (isoLine rd) (name :: map (fun j => row_line j (vals j)) (seq 0 12)) (st, i, w) = Ok (state, 12, fold_left (fun w j => F j w) (seq 0 12) w).
Proof.
  intros state name vals F st i w HN HS NE H SH. cbn [ofold]. rewrite isoLine_header by exact HN. cbn [obind]. rewrite HS.
  rewrite (isoLine_rows state vals F 12 0 w) by (try assumption; lia). reflexivity.
Qed.
End IsoText.
