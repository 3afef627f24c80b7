(** Lemmas about the reports of the command line program. *)
From Coq Require Import Ascii String ZArith Lia DecimalString DecimalNat Decimal.
From Verif Require Import Base Num Text M_Text M_TimeFrame M_Params M_Properties M_UserModel M_Epw M_Solar M_IsoText M_Weather M_Hourly M_Monthly M_Main
  S_Text S_Epw S_Results S_Weather S_Main L_Text L_IsoText L_HourlyShape.
Open Scope nat_scope.
Open Scope list_scope.

(** ** Numerals *)
Definition is_digit (c : ascii) : bool := existsb (Ascii.eqb c) (tx "0123456789").
Lemma uint_digits : forall d, Forall (fun c => is_digit c = true) (tx (NilEmpty.string_of_uint d)).
Proof. induction d; cbn; constructor; try reflexivity; assumption. Qed.
Lemma showInt_digits n : Forall (fun c => is_digit c = true) (showInt n).
Proof.
  unfold showInt, NilZero.string_of_uint. destruct (Nat.to_uint n) eqn:E; try (rewrite <- E; apply uint_digits). repeat constructor.
Qed.
Lemma list_string s : string_of_list_ascii (tx s) = s.
Proof. apply string_of_list_ascii_of_string. Qed.
Lemma showInt_numeral n : numeral n (showInt n).
Proof.
  exists (Nat.to_uint n). split; [|apply Unsigned.of_to]. unfold showInt. rewrite list_string.
  apply NilZero.usu. intros E. pose proof (Unsigned.of_to n) as Z. rewrite E in Z. cbn in Z. subst n. discriminate E.
Qed.
Lemma showInt_free c n : is_digit c = false -> ~ In c (showInt n).
Proof. intros D I. pose proof (showInt_digits n) as F. rewrite Forall_forall in F. specialize (F c I). congruence. Qed.

(** ** Lines *)
Lemma ended_lines ls : Forall no_newline ls -> full_lines (ended ls) ls.
Proof. intros F. split; [exact F|reflexivity]. Qed.
Lemma ended_app a b : ended (a ++ b) = ended a ++ ended b.
Proof. unfold ended. rewrite map_app, concat_app. reflexivity. Qed.
Lemma ended_concat bs : ended (concat bs) = concat (map ended bs).
Proof. induction bs as [|b bs IH]; [reflexivity|]. cbn [concat map]. rewrite ended_app, IH. reflexivity. Qed.
Lemma joined_commas (h : text) ls : h ++ concat (map (fun l : text => ","%char :: l) ls) = joined "," (h :: ls).
Proof.
  revert h. induction ls as [|x v IH]; intros h; [cbn [map concat joined]; apply app_nil_r|].
  cbn [map concat]. rewrite joined_cons, <- IH. reflexivity.
Qed.
Lemma in_joined c sep fs : In c (joined sep fs) -> c = sep \/ exists f, In f fs /\ In c f.
Proof.
  induction fs as [|f [|g r] IH]; intros I; [destruct I|right; exists f; split; [now left|exact I]|].
  rewrite joined_cons in I. apply in_app_iff in I. destruct I as [I|[<-|I]].
  - right. exists f. split; [now left|exact I].
  - left. reflexivity.
  - destruct (IH I) as [E|(f'&F&C)]; [left; exact E|right; exists f'; split; [now right|exact C]].
Qed.
Lemma nth_error_omap {A B} (f : A -> outcome B) l r : omap f l = Ok r -> forall k b, nth_error r k = Some b -> exists a, nth_error l k = Some a /\ f a = Ok b.
Proof.
  intros H k b E. destruct (omap_inv f l r H) as [L I].
  destruct (nth_error l k) as [a|] eqn:Ea.
  - destruct (I k a Ea) as (b'&Eb&Hf). exists a. split; [reflexivity|congruence].
  - exfalso. apply nth_error_None in Ea. assert (k < length r) by (apply nth_error_Some; congruence). lia.
Qed.
Lemma nth_error_seq n k a : nth_error (seq 0 n) k = Some a -> a = k /\ k < n.
Proof.
  intros H. assert (L : k < length (seq 0 n)) by (apply nth_error_Some; congruence). rewrite seq_length in L.
  split; [|exact L]. rewrite nth_error_nth' with (d := 0) in H by (rewrite seq_length; exact L). rewrite seq_nth in H by exact L. cbn in H. congruence.
Qed.
Lemma omap_all {A B} (f : A -> outcome B) l : (forall a, In a l -> exists b, f a = Ok b) -> exists r, omap f l = Ok r.
Proof.
  induction l as [|a l IH]; intros H; [exists []; reflexivity|]. destruct (H a (or_introl eq_refl)) as [b E]. cbn [omap]. rewrite E. cbn [obind].
  destruct IH as [r R]; [intros x I; apply H; now right|]. rewrite R. eexists. reflexivity.
Qed.
Lemma omap_ext {A B} (f g : A -> outcome B) l : (forall a, In a l -> f a = g a) -> omap f l = omap g l.
Proof.
  induction l as [|a l IH]; intros H; [reflexivity|]. cbn [omap]. rewrite (H a (or_introl eq_refl)), IH; [reflexivity|]. intros x I. apply H. now right.
Qed.
Lemma omap_vget {A} (row : list A) n : length row = n -> omap (vget row) (seq 0 n) = Ok row.
Proof.
  intros <-. induction row as [|x r IH] using rev_ind; [reflexivity|]. rewrite app_length. cbn [length]. rewrite seq_app. cbn [seq plus].
  assert (G : forall (f : nat -> outcome A) l m a b, omap f l = Ok a -> f m = Ok b -> omap f (l ++ [m]) = Ok (a ++ [b])).
  { intros f l. induction l as [|y l IHl]; intros m a b H1 H2; cbn [omap app] in H1 |- *.
    - rewrite H2. assert (a = []) as -> by congruence. reflexivity.
    - destruct (f y) as [v| |]; cbn [obind] in H1 |- *; try discriminate. destruct (omap f l) as [vs| |] eqn:E; cbn [obind] in H1; try discriminate.
      rewrite (IHl m vs b eq_refl H2). cbn [obind]. assert (a = v :: vs) as -> by congruence. reflexivity. }
  apply G.
  - transitivity (omap (vget r) (seq 0 (length r))); [|exact IH]. apply omap_ext. intros i I. apply in_seq in I. unfold vget. rewrite nth_error_app1 by lia. reflexivity.
  - unfold vget. rewrite nth_error_app2, Nat.sub_diag by lia. reflexivity.
Qed.

(** ** Tables *)
Section Reports.
Context {T : Type} {N : Num T}.
Variable show : nat -> T -> text.
Hypothesis W : forall d, writes_cells (show d).

Definition plainLine (d i : nat) (row : list T) : text := joined "," (showInt (i + 1) :: map (fun x => blank :: show d x) row).
Lemma tableLine_ok d rows i row : nth_error rows i = Some row -> length row = 13 -> tableLine show d rows i = Ok (plainLine d i row ++ [newline]).
Proof.
  intros E L. unfold tableLine, vget at 1. rewrite E. cbn [obind].
  assert (O : omap (fun j => do x <- vget row j; Ok (tx ", " ++ show d x)) (seq 0 13) = Ok (map (fun x => tx ", " ++ show d x) row)).
  { assert (G : forall l r, omap (vget row) l = Ok r -> omap (fun j => do x <- vget row j; Ok (tx ", " ++ show d x)) l = Ok (map (fun x => tx ", " ++ show d x) r)).
    { intros l. induction l as [|j l IH]; intros r H; cbn [omap] in H |- *; [assert (r = []) as -> by congruence; reflexivity|].
      destruct (vget row j) as [v| |]; cbn [obind] in H |- *; try discriminate. destruct (omap (vget row) l) as [vs| |] eqn:F; cbn [obind] in H; try discriminate.
      rewrite (IH vs eq_refl). cbn [obind]. assert (r = v :: vs) as -> by congruence. reflexivity. }
    apply G. apply omap_vget. exact L. }
  rewrite O. cbn [obind]. f_equal. unfold plainLine. rewrite <- joined_commas. rewrite map_map. rewrite <- app_assoc. reflexivity.
Qed.
Lemma cells_free d row c : c <> blank -> (forall x, ~ In c (show d x)) -> forall f, In f (map (fun x => blank :: show d x) row) -> ~ In c f.
Proof. intros NB H f I. apply in_map_iff in I. destruct I as (x&<-&_). intros [E|J]; [congruence|exact (H x J)]. Qed.
Lemma plainLine_fields d i row : has_fields (plainLine d i row) (showInt (i + 1) :: map (fun x => blank :: show d x) row).
Proof.
  split; [discriminate|]. split; [reflexivity|]. constructor; [apply showInt_free; reflexivity|].
  apply Forall_forall. apply cells_free; [discriminate|]. intros x. apply (W d x).
Qed.
Lemma plainLine_newline d i row : no_newline (plainLine d i row).
Proof.
  intros I. apply in_joined in I. destruct I as [I|(f&[<-|F]&I)]; [discriminate|revert I; apply showInt_free; reflexivity|].
  revert I. apply (cells_free d row); [discriminate| |exact F]. intros x. apply (W d x).
Qed.

(** The texts of the rows from number [k] on. *)
Fixpoint plainLines (d k : nat) (rows : list (list T)) : list text :=
  match rows with [] => [] | r :: rs => plainLine d k r :: plainLines d (S k) rs end.
Lemma plainLines_nth d : forall rows k i, nth_error (plainLines d k rows) i = option_map (plainLine d (k + i)) (nth_error rows i).
Proof. induction rows as [|r rs IH]; intros k [|i]; cbn; try reflexivity; [rewrite Nat.add_0_r; reflexivity|]. rewrite IH, Nat.add_succ_r. reflexivity. Qed.
Lemma plainLines_length d : forall rows k, length (plainLines d k rows) = length rows.
Proof. induction rows as [|r rs IH]; intros k; cbn; [reflexivity|]. rewrite IH. reflexivity. Qed.
Lemma tableLines_ok d rows n : length rows = n -> Forall (fun r => length r = 13) rows ->
  omap (tableLine show d rows) (seq 0 n) = Ok (map (fun l => l ++ [newline]) (plainLines d 0 rows)).
Proof.
  intros L F. assert (G : forall pre suf, rows = pre ++ suf ->
    omap (tableLine show d rows) (seq (length pre) (length suf)) = Ok (map (fun l => l ++ [newline]) (plainLines d (length pre) suf))).
  { intros pre suf. revert pre. induction suf as [|r rs IH]; intros pre E; [reflexivity|]. cbn [length seq omap plainLines map].
    assert (R : nth_error rows (length pre) = Some r) by (rewrite E, nth_error_app2, Nat.sub_diag by lia; reflexivity).
    rewrite (tableLine_ok d rows _ r R); [|rewrite Forall_forall in F; apply F; rewrite E; apply in_app_iff; right; now left].
    cbn [obind]. specialize (IH (pre ++ [r])). rewrite app_length in IH. cbn [length] in IH. rewrite Nat.add_1_r in IH.
    rewrite IH by (rewrite E, <- app_assoc; reflexivity). reflexivity. }
  specialize (G [] rows eq_refl). cbn [length] in G. rewrite L in G. exact G.
Qed.

Definition tableOut (title unit : text) (d : nat) (rows : list (list T)) : text :=
  ended (title :: (unit ++ endUseHeader) :: plainLines d 0 rows).
Lemma tableOut_text title unit d rows : no_newline title -> no_newline unit -> ~ In ","%char unit ->
  table_text title unit (show d) rows (tableOut title unit d rows).
Proof.
  intros HT HU HC. exists (unit ++ endUseHeader), (plainLines d 0 rows). split; [|split; [|split]].
  - apply ended_lines. constructor; [exact HT|]. constructor.
    + intros I. apply in_app_iff in I. destruct I as [I|I]; [exact (HU I)|]. cbv in I. decompose [or] I; try discriminate; contradiction.
    + apply Forall_forall. intros l I. apply In_nth_error in I. destruct I as [i I]. rewrite plainLines_nth in I.
      destruct (nth_error rows i) as [r|]; cbn [option_map Nat.add] in I; [|discriminate]. assert (l = plainLine d i r) as -> by congruence. apply plainLine_newline.
  - split; [discriminate|]. split; [reflexivity|]. constructor; [exact HC|]. unfold uses. repeat constructor; intros I; cbv in I; decompose [or] I; try discriminate; contradiction.
  - apply plainLines_length.
  - intros i row line Hr Hl. rewrite plainLines_nth, Hr in Hl. cbn [option_map Nat.add] in Hl. assert (line = plainLine d i row) as -> by congruence.
    exists (showInt (i + 1)). split; [apply showInt_numeral|apply plainLine_fields].
Qed.
End Reports.

(** ** Comparisons *)
Lemma Forall2_length {A B} (P : A -> B -> Prop) l r : Forall2 P l r -> length l = length r.
Proof. induction 1; cbn; congruence. Qed.
Lemma Forall2_nth {A B} (P : A -> B -> Prop) l r : Forall2 P l r -> forall i a b, nth_error l i = Some a -> nth_error r i = Some b -> P a b.
Proof. induction 1 as [|x y l r H F IH]; intros [|i] a b E1 E2; cbn in E1, E2; try discriminate; [congruence|exact (IH i a b E1 E2)]. Qed.
Section Comparisons.
Context {T : Type} {N : Num T}.
Variable show : nat -> T -> text.
Hypothesis W : forall d, writes_cells (show d).

Definition compareCells (markdown : bool) (cells : list text) : text :=
  if markdown then joined "|" ([] :: map (fun c => blank :: c ++ [blank]) cells ++ [[]])
  else match cells with [] => [] | c :: r => joined "," (c :: map (cons blank) r) end.
Lemma compareCells_of markdown cells : cells <> [] -> Forall (fun c => ~ In ","%char c /\ ~ In "|"%char c) cells -> cells_of markdown (compareCells markdown cells) cells.
Proof.
  intros NE F. destruct markdown; cbn [cells_of compareCells].
  - split; [reflexivity|]. eapply Forall_impl; [|exact F]. cbn. tauto.
  - destruct cells as [|c r]; [congruence|]. split; [discriminate|]. split; [reflexivity|]. inversion F; subst. constructor; [tauto|].
    apply Forall_forall. intros f I. apply in_map_iff in I. destruct I as (g&<-&I). match goal with H : Forall _ r |- _ => rewrite Forall_forall in H; specialize (H g I) end.
    intros [E|J]; [discriminate|tauto].
Qed.
Lemma compareCells_newline markdown cells : Forall no_newline cells -> no_newline (compareCells markdown cells).
Proof.
  intros F I. rewrite Forall_forall in F. destruct markdown; cbn [compareCells] in I.
  - apply in_joined in I. destruct I as [I|(f&[<-|J]&I)]; [discriminate|exact I|]. apply in_app_iff in J. destruct J as [J|[<-|[]]]; [|exact I].
    apply in_map_iff in J. destruct J as (c&<-&J). destruct I as [I|I]; [discriminate|]. apply in_app_iff in I. destruct I as [I|[I|[]]]; [exact (F c J I)|discriminate].
  - destruct cells as [|c r]; [exact I|]. apply in_joined in I. destruct I as [I|(f&[<-|J]&I)]; [discriminate|exact (F c (or_introl eq_refl) I)|].
    apply in_map_iff in J. destruct J as (g&<-&J). destruct I as [I|I]; [discriminate|exact (F g (or_intror J) I)].
Qed.
Lemma compareCells_text (markdown : bool) (a b c e : text) :
  (if markdown then tx "| " else []) ++ a ++ (if markdown then tx " | " else tx ", ") ++ b ++ (if markdown then tx " | " else tx ", ") ++ c ++
    (if markdown then tx " | " else tx ", ") ++ e ++ (if markdown then tx " |" else []) ++ [newline] = compareCells markdown [a; b; c; e] ++ [newline].
Proof.
  destruct markdown; cbn [compareCells map app joined tx list_ascii_of_string]; repeat rewrite <- app_assoc; cbn [app];
    repeat (rewrite <- app_assoc; cbn [app]); reflexivity.
Qed.
Definition shows (d : nat) (x y : T) : list text := [show d x; show d y; show d (nsub x y)].
Lemma clean_show d x : ~ In ","%char (show d x) /\ ~ In "|"%char (show d x).
Proof. destruct (W d x) as (A&B&C&D). split; assumption. Qed.
Lemma clean_int n : ~ In ","%char (showInt n) /\ ~ In "|"%char (showInt n).
Proof. split; apply showInt_free; reflexivity. Qed.
Lemma compareLine_ok markdown d mo ho k i x y : cell mo i k = Some x -> cell ho i k = Some y ->
  compareLine show markdown d mo ho k i = Ok (compareCells markdown (showInt i :: shows d x y) ++ [newline]).
Proof.
  intros X Y. unfold compareLine, vget. unfold cell in X, Y. destruct (nth_error mo i) as [mr|]; [|discriminate]. destruct (nth_error ho i) as [hr|]; [|discriminate].
  cbn [obind]. rewrite X. cbn [obind]. rewrite Y. cbn [obind]. f_equal. apply compareCells_text.
Qed.
Lemma table_cell n (rows : list (list T)) i k : table_shape n rows -> i < n -> k < 13 -> exists x, cell rows i k = Some x.
Proof.
  intros [L F] I K. unfold cell. destruct (nth_error rows i) as [r|] eqn:E; [|apply nth_error_None in E; lia].
  rewrite Forall_forall in F. assert (LR : length r = 13) by (apply F; eapply nth_error_In; exact E).
  destruct (nth_error r k) as [x|] eqn:E2; [exists x; reflexivity|apply nth_error_None in E2; lia].
Qed.
Lemma compareTable_ok markdown d mo ho k : table_shape 12 mo -> table_shape 12 ho -> k < 13 ->
  exists ls, compareTable show markdown d mo ho k = Ok (ended ls) /\ Forall no_newline ls /\ comparison 0 markdown (show d) k mo ho ls.
Proof.
  intros SM SH K. unfold compareTable.
  assert (NK : exists name, nth_error endUseNames k = Some name /\ nth_error uses k = Some name /\ no_newline name /\ ~ In ","%char name /\ ~ In "|"%char name).
  { do 13 (destruct k as [|k]; [eexists; split; [reflexivity|]; split; [reflexivity|]; repeat split; intros I; cbv in I; decompose [or] I; try discriminate; contradiction|]). lia. }
  destruct NK as (name&E1&E2&NN&NC&NB). unfold vget at 1. rewrite E1. cbn [obind].
  set (line := fun i => compareCells markdown (showInt i :: match cell mo i k, cell ho i k with Some x, Some y => shows d x y | _, _ => [] end)).
  assert (O : omap (compareLine show markdown d mo ho k) (seq 0 12) = Ok (map (fun i => line i ++ [newline]) (seq 0 12))).
  { apply L_IsoText.omap_map. intros i I. apply in_seq in I. destruct (table_cell 12 mo i k SM ltac:(lia) K) as [x X]. destruct (table_cell 12 ho i k SH ltac:(lia) K) as [y Y].
    rewrite (compareLine_ok markdown d mo ho k i x y X Y). unfold line. rewrite X, Y. reflexivity. }
  rewrite O. cbn [obind].
  assert (HC : forall w, no_newline w -> ~ In ","%char w -> ~ In "|"%char w -> forall p, no_newline p -> ~ In ","%char p -> ~ In "|"%char p ->
    no_newline (p ++ w) /\ ~ In ","%char (p ++ w) /\ ~ In "|"%char (p ++ w)).
  { unfold no_newline. intros w A1 A2 A3 p B1 B2 B3. repeat split; intros I; apply in_app_iff in I; tauto. }
  assert (Q : forall s, forallb (fun c => negb (Ascii.eqb c newline || Ascii.eqb c "," || Ascii.eqb c "|")) s = true -> no_newline s /\ ~ In ","%char s /\ ~ In "|"%char s).
  { intros s H. rewrite forallb_forall in H. repeat split; intros I; specialize (H _ I); cbn in H; discriminate. }
  pose proof (HC name NN NC NB (tx "Monthly ")) as HM. pose proof (HC name NN NC NB (tx "Hourly ")) as HH.
  destruct (Q (tx "Month") eq_refl) as (a1&a2&a3). destruct (Q (tx "Difference") eq_refl) as (b1&b2&b3). destruct (Q (tx "Monthly ") eq_refl) as (c1&c2&c3). destruct (Q (tx "Hourly ") eq_refl) as (e1&e2&e3).
  destruct (HM c1 c2 c3) as (f1&f2&f3). destruct (HH e1 e2 e3) as (g1&g2&g3).
  set (header := [tx "Month"; tx "Monthly " ++ name; tx "Hourly " ++ name; tx "Difference"]).
  exists (compareCells markdown header :: (if markdown then [tx "|---|---|---|---|"] else []) ++ map line (seq 0 12) ++ [[]]). split; [|split].
  - f_equal. unfold header. 
    change (ended (?a :: ?l)) with ((a ++ [newline]) ++ ended l). 
    rewrite <- compareCells_text, !ended_app. 
    assert (EB : concat (map (fun i => line i ++ [newline]) (seq 0 12)) = ended (map line (seq 0 12))) by (unfold ended; rewrite map_map; reflexivity).
    rewrite EB. destruct markdown; rewrite <- ?app_assoc; reflexivity.
  - constructor; [apply compareCells_newline; repeat constructor; assumption|]. apply Forall_app. split.
    + destruct markdown; [|constructor]. constructor; [|constructor]. intros I. cbv in I. decompose [or] I; try discriminate; contradiction.
    + apply Forall_app. split; [|repeat constructor; intros []]. apply Forall_forall. intros l I. apply in_map_iff in I. destruct I as (i&<-&I). apply compareCells_newline.
      constructor; [apply showInt_free; reflexivity|]. destruct (cell mo i k); [|constructor]. destruct (cell ho i k); [|constructor]. unfold shows. repeat (apply Forall_cons; [exact (proj2 (proj2 (proj2 (W d _))))|]). apply Forall_nil.
  - exists name, (compareCells markdown header), (map line (seq 0 12)). split; [exact E2|]. split; [reflexivity|]. split; [|split].
    + apply compareCells_of; [discriminate|]. repeat constructor; assumption.
    + rewrite map_length, seq_length. reflexivity.
    + intros i l H. rewrite nth_error_map in H. destruct (nth_error (seq 0 12) i) as [j|] eqn:J; [|discriminate]. apply nth_error_seq in J. destruct J as [-> J].
      destruct (table_cell 12 mo i k SM J K) as [x X]. destruct (table_cell 12 ho i k SH J K) as [y Y].
      exists (showInt i), x, y. split; [apply showInt_numeral|]. split; [exact X|]. split; [exact Y|].
      cbn [option_map] in H. assert (l = line i) as -> by congruence. unfold line. rewrite X, Y. apply compareCells_of; [discriminate|].
      constructor; [apply clean_int|]. repeat constructor; apply clean_show.
Qed.
Lemma compareTables_ok markdown d mo ho : table_shape 12 mo -> table_shape 12 ho ->
  exists out, omap (compareTable show markdown d mo ho) (seq 0 13) = Ok out /\ comparison_text 0 markdown (show d) mo ho (concat out).
Proof.
  intros SM SH.
  assert (G : forall ks, Forall (fun k => k < 13) ks -> exists blocks, omap (compareTable show markdown d mo ho) ks = Ok (map ended blocks) /\ Forall (Forall no_newline) blocks /\
     Forall2 (fun k b => comparison 0 markdown (show d) k mo ho b) ks blocks).
  { induction ks as [|k ks IH]; intros F; [exists []; repeat split; constructor|]. inversion F; subst.
    destruct (compareTable_ok markdown d mo ho k SM SH ltac:(assumption)) as (ls&E&NL&C). destruct IH as (bs&Eb&NLb&Cb); [assumption|].
    exists (ls :: bs). cbn [omap map]. rewrite E. cbn [obind]. rewrite Eb. cbn [obind]. split; [reflexivity|]. split; constructor; assumption. }
  destruct (G (seq 0 13)) as (bs&E&NL&C); [apply Forall_forall; intros k I; apply in_seq in I; lia|].
  exists (map ended bs). split; [exact E|]. exists bs. split; [|split].
  - rewrite <- ended_concat. apply ended_lines. apply Forall_concat. exact NL.
  - apply Forall2_length in C. rewrite seq_length in C. symmetry. exact C.
  - intros k b H. assert (L : length bs = 13) by (apply Forall2_length in C; rewrite seq_length in C; symmetry; exact C).
    assert (K : k < 13) by (rewrite <- L; apply nth_error_Some; congruence).
    apply (Forall2_nth _ _ _ C k k b); [|exact H]. rewrite nth_error_nth' with (d := 0) by (rewrite seq_length; exact K). rewrite seq_nth by exact K. reflexivity.
Qed.
End Comparisons.
