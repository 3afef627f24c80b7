(** Lemmas about the weather file and block readers. *)
From Coq Require Import Ascii String ZArith Lia.
From Verif Require Import Base Num Text M_Text M_TimeFrame M_Properties M_Epw S_Text S_Epw L_Text L_Properties L_HourlyShape.
Open Scope nat_scope.
Open Scope char_scope.
Open Scope list_scope.

Lemma fields_none : forall n s i, i < n -> nth_error (fields_from n (None, s)) i = Some s.
Proof.
  induction n as [|n IH]; intros s i H; [lia|]. destruct i as [|i]; [reflexivity|]. cbn. apply IH. lia.
Qed.
Lemma next_last : forall f s : text, ~ In "," f -> next_field (Some f, s) = (None, f).
Proof. intros f s H. unfold next_field. cbn [fst]. rewrite (proj2 (find_eq_none f ",") H). reflexivity. Qed.
Lemma next_more : forall f r s : text, ~ In "," f -> next_field (Some (f ++ "," :: r), s) = (Some r, f).
Proof.
  intros f r s H. unfold next_field. cbn [fst]. rewrite (find_eq_split f r "," H). f_equal.
  - f_equal. rewrite skipn_app. rewrite skipn_all2 by lia. replace (S (List.length f) - List.length f) with 1 by lia. reflexivity.
  - rewrite firstn_app, firstn_all, Nat.sub_diag. cbn. apply app_nil_r.
Qed.
Lemma fields_nth_gen : forall (fs : list text) n i s, fs <> [] -> Forall (fun f => ~ In "," f) fs -> i < n ->
  nth_error (fields_from n (Some (joined "," fs), s)) i =
    Some (nth i fs (last fs [])).
Proof.
  induction fs as [|f fs IH]; intros n i s NE F H; [congruence|].
  inversion F as [|? ? Hf F']; subst. destruct n as [|n]; [lia|].
  destruct fs as [|g r].
  - cbn [joined fields_from]. rewrite (next_last f s Hf). destruct i as [|i]; [reflexivity|]. cbn.
    rewrite fields_none by lia. destruct i; reflexivity.
  - assert (Q : joined "," (f :: g :: r) = f ++ "," :: joined "," (g :: r)) by reflexivity.
    rewrite Q. cbn [fields_from]. rewrite (next_more f _ s Hf). destruct i as [|i]; [reflexivity|].
    cbn [nth_error snd]. rewrite (IH n i f); [reflexivity|discriminate|exact F'|lia].
Qed.
Lemma fields_nth : forall line fs n i, has_fields line fs -> i < n -> nth_error (fields n line) i = Some (nth i fs (last fs [])).
Proof. intros line fs n i (NE&->&F) H. apply fields_nth_gen; assumption. Qed.
Lemma fields_length : forall n st, List.length (fields_from n st) = n.
Proof. induction n as [|n IH]; intros st; cbn; [reflexivity|]. rewrite IH. reflexivity. Qed.

(** Every line has fields. *)
Lemma fields_exist : forall line, exists fs, has_fields line fs.
Proof.
  induction line as [|c l (fs&NE&E&F)].
  - exists [[]]. split; [discriminate|]. split; [reflexivity|]. constructor; [intros []|constructor].
  - destruct fs as [|f r]; [congruence|]. inversion F as [|? ? Hf F']; subst.
    destruct (ascii_dec c ",") as [->|N].
    + exists ([] :: f :: r). split; [discriminate|]. split; [reflexivity|]. constructor; [intros []|]. constructor; assumption.
    + exists ((c :: f) :: r). split; [discriminate|]. split; [destruct r; reflexivity|].
      constructor; [|exact F']. intros [C|C]; [congruence|contradiction].
Qed.

(** [upd]. *)
Lemma upd_length : forall A (v : list A) i x, List.length (upd v i x) = List.length v.
Proof. induction v as [|a v IH]; intros [|i] x; cbn; try reflexivity. rewrite IH. reflexivity. Qed.
Lemma upd_same : forall A (v : list A) i x, i < List.length v -> nth_error (upd v i x) i = Some x.
Proof. induction v as [|a v IH]; intros [|i] x H; cbn in *; try lia; [reflexivity|]. apply IH. lia. Qed.
Lemma upd_other : forall A (v : list A) i j x, i <> j -> nth_error (upd v i x) j = nth_error v j.
Proof.
  induction v as [|a v IH]; intros [|i] [|j] x H; cbn; try reflexivity; try lia. apply IH. lia.
Qed.
Lemma vset_ok : forall A (v : list A) i x, i < List.length v -> vset v i x = Ok (upd v i x).
Proof. intros A v i x H. unfold vset. rewrite (proj2 (Nat.ltb_lt _ _) H). reflexivity. Qed.

Definition table (rows : nat) {A} (t : list (list A)) : Prop := List.length t = 7 /\ Forall (fun v => List.length v = rows) t.

Section Epw.
Context {T : Type} {N : Num T}.
Variable rd : reader T.

Lemma put_cell_ok : forall rows (t : list (list T)) col row x, table rows t -> col < 7 -> row < rows ->
  exists t', put_cell row x col t = Ok t' /\ table rows t' /\
    cell t' col row = Some x /\ forall c r, (c <> col \/ r <> row) -> cell t' c r = cell t c r.
Proof.
  intros rows t col row x (L&F) HC HR. unfold put_cell, vget.
  destruct (nth_error t col) as [v|] eqn:E; [|apply nth_error_None in E; lia]. cbn.
  assert (LV : List.length v = rows) by (apply (proj1 (Forall_forall _ _) F); apply nth_error_In with col; exact E).
  rewrite vset_ok by lia. cbn. rewrite vset_ok by lia. eexists. split; [reflexivity|].
  split; [split; [rewrite upd_length; exact L|]|split].
  - apply Forall_forall. intros w I. apply In_nth_error in I. destruct I as (k&K).
    destruct (Nat.eq_dec col k) as [<-|NK].
    + rewrite upd_same in K by lia. injection K as <-. rewrite upd_length. exact LV.
    + rewrite upd_other in K by exact NK. apply (proj1 (Forall_forall _ _) F). apply nth_error_In with k. exact K.
  - unfold cell. rewrite upd_same by lia. apply upd_same. lia.
  - intros c r H. unfold cell. destruct (Nat.eq_dec col c) as [<-|NC].
    + rewrite upd_same by lia. rewrite E. apply upd_other. destruct H; congruence.
    + rewrite upd_other by exact NC. reflexivity.
Qed.

(** The text of the field a column is read from. *)
Definition source (line : text) (c : nat) : text :=
  let f := fields 22 line in
  match c with
  | 0 => nth 6 f [] | 1 => nth 7 f [] | 2 => nth 8 f [] | 3 => nth 13 f [] | 4 => nth 14 f [] | 5 => nth 15 f [] | _ => nth 21 f []
  end.

Lemma vget_field : forall line k, k < 22 -> vget (fields 22 line) k = Ok (nth k (fields 22 line) []).
Proof.
  intros line k H. unfold vget. rewrite (@nth_error_nth' text (fields 22 line) k []); [reflexivity|]. unfold fields. rewrite fields_length. exact H.
Qed.

Lemma parseData_ok : forall rows line row (e : epw T), table rows (ep_data e) -> row < rows ->
  exists e', parseData rd line row e = Ok e' /\ table rows (ep_data e') /\ ep_site e' = ep_site e /\
    ep_location e' = ep_location e /\ ep_station e' = ep_station e /\
    (forall c, c < 7 -> cell (ep_data e') c row = Some (rd_atof rd (source line c))) /\
    (forall c r, r <> row -> cell (ep_data e') c r = cell (ep_data e) c r).
Proof.
  intros rows line row e TB HR. unfold parseData, column_fields. cbn [ofold fst snd].
  rewrite (vget_field line 6) by lia. cbn [obind].
  destruct (put_cell_ok rows (ep_data e) DBT row (rd_atof rd (nth 6 (fields 22 line) [])) TB ltac:(unfold DBT; lia) HR) as (t1&->&T1&C1&O1). cbn [obind].
  rewrite (vget_field line 7) by lia. cbn [obind].
  destruct (put_cell_ok rows t1 DPT row (rd_atof rd (nth 7 (fields 22 line) [])) T1 ltac:(unfold DPT; lia) HR) as (t2&->&T2&C2&O2). cbn [obind].
  rewrite (vget_field line 8) by lia. cbn [obind].
  destruct (put_cell_ok rows t2 RH row (rd_atof rd (nth 8 (fields 22 line) [])) T2 ltac:(unfold RH; lia) HR) as (t3&->&T3&C3&O3). cbn [obind].
  rewrite (vget_field line 13) by lia. cbn [obind].
  destruct (put_cell_ok rows t3 EGH row (rd_atof rd (nth 13 (fields 22 line) [])) T3 ltac:(unfold EGH; lia) HR) as (t4&->&T4&C4&O4). cbn [obind].
  rewrite (vget_field line 14) by lia. cbn [obind].
  destruct (put_cell_ok rows t4 EB row (rd_atof rd (nth 14 (fields 22 line) [])) T4 ltac:(unfold EB; lia) HR) as (t5&->&T5&C5&O5). cbn [obind].
  rewrite (vget_field line 15) by lia. cbn [obind].
  destruct (put_cell_ok rows t5 ED row (rd_atof rd (nth 15 (fields 22 line) [])) T5 ltac:(unfold ED; lia) HR) as (t6&->&T6&C6&O6). cbn [obind].
  rewrite (vget_field line 21) by lia. cbn [obind].
  destruct (put_cell_ok rows t6 WSPD row (rd_atof rd (nth 21 (fields 22 line) [])) T6 ltac:(unfold WSPD; lia) HR) as (t7&->&T7&C7&O7). cbn [obind].
  eexists. split; [reflexivity|]. cbn [ep_data ep_site ep_location ep_station].
  split; [exact T7|]. do 3 (split; [reflexivity|]). split.
  - unfold DBT, DPT, RH, EGH, EB, ED, WSPD in *. intros c HC.
    destruct c as [|[|[|[|[|[|[|]]]]]]]; [..|lia]; unfold source; cbv zeta iota.
    + rewrite O7, O6, O5, O4, O3, O2, C1 by lia. reflexivity.
    + rewrite O7, O6, O5, O4, O3, C2 by lia. reflexivity.
    + rewrite O7, O6, O5, O4, C3 by lia. reflexivity.
    + rewrite O7, O6, O5, C4 by lia. reflexivity.
    + rewrite O7, O6, C5 by lia. reflexivity.
    + rewrite O7, C6 by lia. reflexivity.
    + rewrite C7. reflexivity.
  - intros c r H. rewrite O7, O6, O5, O4, O3, O2, O1 by lia. reflexivity.
Qed.
Opaque parseData.

Lemma slices_Z : Z.of_nat slices = 8760%Z.
Proof. unfold slices, TIMESLICES. rewrite Z2Nat.id; lia. Qed.

(** The data lines. *)
Lemma readRows_data : forall ls i row (e : epw T), (8 <= i)%Z -> table slices (ep_data e) ->
  exists e', readRows rd ls i (Z.of_nat row) e = Ok e' /\ table slices (ep_data e') /\ ep_site e' = ep_site e /\
    ep_location e' = ep_location e /\ ep_station e' = ep_station e /\
    forall c r, c < 7 -> cell (ep_data e') c r =
      if ((row <=? r)%nat && (r <? slices)%nat) then
        match nth_error ls (r - row) with Some line => Some (rd_atof rd (source line c)) | None => cell (ep_data e) c r end
      else cell (ep_data e) c r.
Proof.
  induction ls as [|line ls IH]; intros i row e HI TB; cbn [readRows].
  - exists e. repeat split; try apply TB. intros c r HC. rewrite (proj2 (nth_error_None [] (r - row))) by (cbn; lia).
    destruct (((row <=? r)%nat && (r <? slices)%nat)); reflexivity.
  - destruct (Z.ltb_spec (Z.of_nat row) TIMESLICES) as [H|H].
    + rewrite (proj2 (Z.eqb_neq (i + 1) 1)) by lia. rewrite (proj2 (Z.ltb_lt 8 (i + 1))) by lia.
      rewrite Nat2Z.id. pose proof slices_Z as SZ. unfold TIMESLICES in H.
      destruct (parseData_ok slices line row e TB ltac:(lia)) as (e1&->&T1&S1&L1&N1&C1&O1). cbn [obind].
      replace (Z.of_nat row + 1)%Z with (Z.of_nat (S row)) by lia.
      destruct (IH (i + 1)%Z (S row) e1 ltac:(lia) T1) as (e2&E2&T2&S2&L2&N2&C2).
      exists e2. split; [exact E2|]. split; [exact T2|]. split; [congruence|]. split; [congruence|]. split; [congruence|].
      intros c r HC. rewrite C2 by exact HC.
      destruct (Nat.eq_dec r row) as [->|NR].
      * rewrite (proj2 (Nat.leb_gt (S row) row)) by lia. cbn [andb]. rewrite C1 by exact HC.
        rewrite (proj2 (Nat.leb_le row row)) by lia. rewrite (proj2 (Nat.ltb_lt row slices)) by lia.
        rewrite Nat.sub_diag. reflexivity.
      * rewrite O1 by exact NR. destruct (Nat.ltb_spec r slices) as [HS|HS]; [|rewrite !andb_false_r; reflexivity].
        rewrite !andb_true_r. destruct (Nat.leb_spec (S row) r) as [HL|HL].
        -- rewrite (proj2 (Nat.leb_le row r)) by lia. replace (r - row) with (S (r - S row)) by lia. reflexivity.
        -- rewrite (proj2 (Nat.leb_gt row r)) by lia. reflexivity.
    + exists e. split; [reflexivity|]. split; [exact TB|]. do 3 (split; [reflexivity|]). intros c r HC.
      pose proof slices_Z as SZ. unfold TIMESLICES in H.
      destruct (Nat.leb_spec row r) as [A|A]; [|reflexivity]. destruct (Nat.ltb_spec r slices) as [B|B]; [lia|]. reflexivity.
Qed.

Definition header (line : text) : option (T * T * Z) :=
  let f := fields 10 line in
  match ntrunc (rd_atof rd (nth 8 f [])) with
  | Some tz => Some (rd_atof rd (nth 6 f []), rd_atof rd (nth 7 f []), tz)
  | None => None
  end.
Lemma parseHeader_eq : forall line (e : epw T),
  parseHeader rd line e = match header line with
    | Some s => Ok (mkEpw (nth 1 (fields 10 line) []) (nth 5 (fields 10 line) []) (Some s) (ep_data e))
    | None => UB end.
Proof.
  intros line e. unfold parseHeader, header, vget.
  assert (Q : forall k, k < 10 -> nth_error (fields 10 line) k = Some (nth k (fields 10 line) [])).
  { intros k H. apply nth_error_nth'. unfold fields. rewrite fields_length. exact H. }
  rewrite !Q by lia. cbn [obind]. destruct (ntrunc (rd_atof rd (nth 8 (fields 10 line) []))); reflexivity.
Qed.

Lemma readRows_skip : forall ls (i : Z) (e : epw T), (1 <= i <= 8)%Z ->
  readRows rd ls i 0 e = readRows rd (skipn (Z.to_nat (8 - i)) ls) 8 0 e.
Proof.
  induction ls as [|l ls IH]; intros i e H.
  - rewrite skipn_nil. reflexivity.
  - destruct (Z.eq_dec i 8) as [->|NI]; [reflexivity|].
    replace (Z.to_nat (8 - i)) with (S (Z.to_nat (8 - (i + 1)))) by lia. cbn [skipn].
    rewrite <- IH by lia. cbn [readRows]. rewrite (proj2 (Z.ltb_lt 0 TIMESLICES)) by (unfold TIMESLICES; lia).
    rewrite (proj2 (Z.eqb_neq (i + 1) 1)) by lia. rewrite (proj2 (Z.ltb_ge 8 (i + 1))) by lia. reflexivity.
Qed.

Lemma resize_length : forall n (v : list T), List.length (resize n v) = n.
Proof. intros n v. unfold resize. rewrite app_length, firstn_length, repeat_length. lia. Qed.
Lemma resize_nth : forall n (v : list T) k, k < n ->
  nth_error (resize n v) k = Some (match nth_error v k with Some x => x | None => zn 0 end).
Proof.
  intros n v k H. unfold resize. destruct (Nat.lt_ge_cases k (List.length v)) as [A|A].
  - rewrite nth_error_app1 by (rewrite firstn_length; lia).
    rewrite <- (firstn_skipn n v) at 2. rewrite nth_error_app1 by (rewrite firstn_length; lia).
    destruct (nth_error (firstn n v) k) eqn:E; [reflexivity|]. apply nth_error_None in E. rewrite firstn_length in E. lia.
  - rewrite nth_error_app2 by (rewrite firstn_length; lia). rewrite (proj2 (nth_error_None v k) A).
    apply nth_error_repeat. rewrite firstn_length. lia.
Qed.
Lemma resized_table : forall (t : list (list T)), List.length t = 7 -> table slices (map (resize slices) t).
Proof.
  intros t L. split; [rewrite map_length; exact L|]. apply Forall_forall. intros v I. apply in_map_iff in I.
  destruct I as (w&<-&_). apply resize_length.
Qed.
Lemma resized_cell : forall (t : list (list T)) c r, c < List.length t -> r < slices ->
  cell (map (resize slices) t) c r = Some (match cell t c r with Some x => x | None => zn 0 end).
Proof.
  intros t c r HC HR. unfold cell. rewrite nth_error_map. destruct (nth_error t c) as [v|] eqn:E; [|apply nth_error_None in E; lia].
  cbn. apply resize_nth. exact HR.
Qed.

Lemma goodlines_cons : forall s cur, exists h rest, goodlines cur s = h :: rest.
Proof. induction s as [|c s IH]; intros cur; cbn; [eauto|]. destruct (Ascii.eqb c newline); [eauto|apply IH]. Qed.

(** The whole effect of loading a file that can be opened. *)
Lemma loadFile_spec : forall content (e : epw T), List.length (ep_data e) = 7 ->
  match header (hd [] (goodlines [] content)) with
  | None => loadFile rd (Some content) e = UB
  | Some site => exists e', loadFile rd (Some content) e = Ok e' /\ table slices (ep_data e') /\ ep_site e' = Some site /\
      ep_location e' = nth 1 (fields 10 (hd [] (goodlines [] content))) [] /\
      ep_station e' = nth 5 (fields 10 (hd [] (goodlines [] content))) [] /\
      forall c r, c < 7 -> r < slices -> cell (ep_data e') c r =
        match nth_error (goodlines [] content) (8 + r) with
        | Some line => Some (rd_atof rd (source line c))
        | None => Some (match cell (ep_data e) c r with Some x => x | None => zn 0 end)
        end
  end.
Proof.
  intros content e L. unfold loadFile. destruct (goodlines_cons content []) as (h&rest&G). rewrite G. cbn [hd].
  assert (Q : forall e, readRows rd (h :: rest) 0 0 e = do e <- parseHeader rd h e; readRows rd rest 1 0 e) by reflexivity.
  rewrite Q. rewrite parseHeader_eq. destruct (header h) as [site|]; [|reflexivity]. cbn [obind ep_data].
  rewrite readRows_skip by lia. 
  match goal with |- context [readRows rd ?ls 8 0 ?e0] => destruct (readRows_data ls 8 0 e0 ltac:(lia) (resized_table _ L)) as (e'&E'&T'&S'&L'&N'&C') end.
  exists e'. split; [exact E'|]. split; [exact T'|]. split; [exact S'|]. split; [exact L'|]. split; [exact N'|].
  intros c r HC HR. rewrite C' by exact HC. rewrite (proj2 (Nat.ltb_lt r slices) HR). cbn [Nat.leb andb ep_data].
  rewrite resized_cell by (rewrite ?L; assumption). rewrite map_skipn_nth. replace (r - 0) with r by lia.
  replace (Z.to_nat (8 - 1)) with 7 by reflexivity. reflexivity.
Qed.
End Epw.
