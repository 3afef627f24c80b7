(** Lemmas about the weather file and block readers: property statements. *)
From Coq Require Import Ascii String ZArith Lia.
From Verif Require Import Base Num Text M_Text M_TimeFrame M_Properties M_Epw S_Text S_Epw L_Text L_Properties L_HourlyShape L_Epw.
Open Scope char_scope.
Open Scope nat_scope.
Open Scope list_scope.

Lemma goodlines_line : forall l cur s, ~ In newline l -> goodlines cur (l ++ newline :: s) = (cur ++ l) :: goodlines [] s.
Proof.
  induction l as [|c l IH]; intros cur s H.
  - cbn. rewrite app_nil_r. reflexivity.
  - cbn. destruct (Ascii.eqb_spec c newline) as [->|N]; [exfalso; apply H; left; reflexivity|].
    rewrite IH by (intros I; apply H; right; exact I). rewrite <- app_assoc. reflexivity.
Qed.
Lemma goodlines_rest : forall l cur, ~ In newline l -> goodlines cur l = [cur ++ l].
Proof.
  induction l as [|c l IH]; intros cur H.
  - cbn. rewrite app_nil_r. reflexivity.
  - cbn. destruct (Ascii.eqb_spec c newline) as [->|N]; [exfalso; apply H; left; reflexivity|].
    rewrite IH by (intros I; apply H; right; exact I). rewrite <- app_assoc. reflexivity.
Qed.
Lemma goodlines_ended : forall ls s, Forall no_newline ls -> goodlines [] (ended ls ++ s) = ls ++ goodlines [] s.
Proof.
  induction ls as [|l ls IH]; intros s H; [reflexivity|]. inversion H as [|? ? H1 H2]; subst.
  unfold ended. cbn [map concat]. rewrite <- !app_assoc. cbn [app]. rewrite goodlines_line by exact H1. cbn [app]. f_equal.
  apply IH. exact H2.
Qed.
Lemma goodlines_is_lines : forall content ls, is_lines content ls ->
  goodlines [] content = ls ++ [[]] \/ (goodlines [] content = ls /\ ls <> []).
Proof.
  intros content ls (F&[->|(ls'&l&->&NE&->)]).
  - left. rewrite <- (app_nil_r (ended ls)). rewrite goodlines_ended by exact F. reflexivity.
  - right. apply Forall_app in F. destruct F as [F1 F2]. inversion F2; subst. split.
    + rewrite goodlines_ended by exact F1. f_equal. apply goodlines_rest. assumption.
    + destruct ls'; discriminate.
Qed.
Lemma goodlines_nth : forall content ls k l, is_lines content ls -> nth_error ls k = Some l -> nth_error (goodlines [] content) k = Some l.
Proof.
  intros content ls k l H E. destruct (goodlines_is_lines content ls H) as [->|(->&_)]; [|exact E].
  rewrite nth_error_app1; [exact E|]. apply nth_error_Some. congruence.
Qed.

Lemma nth_last_len : forall (fs : list text) i f d, nth_error fs i = Some f -> nth i fs d = f.
Proof. intros fs i f d E. apply nth_error_nth. exact E. Qed.

Lemma ok_eq : forall A (a b : A), Ok a = Ok b -> a = b.
Proof. congruence. Qed.
Section Epw.
Context {T : Type} {N : Num T}.
Variable rd : reader T.

Lemma nth_fields : forall n line fs i d, has_fields line fs -> i < n -> nth i (fields n line) d = nth i fs (last fs []).
Proof. intros n line fs i d H L. apply nth_error_nth. apply fields_nth; assumption. Qed.

Lemma source_eq : forall line fs col pos, has_fields line fs -> In (col, pos) epw_format ->
  source line col = nth (pos - 1) fs (last fs []).
Proof.
  intros line fs col pos H I. unfold epw_format in I.
  repeat (destruct I as [I|I]; [injection I as <- <-; unfold source; cbv zeta iota; rewrite (nth_fields 22 line fs _ _ H) by lia; reflexivity|]).
  destruct I.
Qed.
Lemma format_cols : forall col pos, In (col, pos) epw_format -> col < 7.
Proof. intros col pos I. unfold epw_format in I. repeat (destruct I as [I|I]; [injection I as <- <-; lia|]). destruct I. Qed.
Lemma format_total : forall col, col < 7 -> exists pos, In (col, pos) epw_format.
Proof. intros col H. do 7 (destruct col as [|col]; [eexists; cbn; tauto|]). lia. Qed.

Lemma table_year : forall A (t : list (list A)), table slices t -> year_table t.
Proof.
  intros A t (L&F). split; [exact L|]. eapply Forall_impl; [|exact F]. intros v H. cbn in H. rewrite H. apply slices_Z.
Qed.

Lemma hd_nth : forall (l : list text) h, nth_error l 0 = Some h -> hd [] l = h.
Proof. intros [|a l] h E; [discriminate|]. cbn in E. injection E as <-. reflexivity. Qed.

Lemma C36_file_l : forall content ls (e : epw T) h hf lat lon zone loc sta tz,
  List.length (ep_data e) = 7 -> is_lines content ls -> nth_error ls 0 = Some h -> has_fields h hf ->
  nth_error hf 1 = Some loc -> nth_error hf 5 = Some sta ->
  nth_error hf 6 = Some lat -> nth_error hf 7 = Some lon -> nth_error hf 8 = Some zone ->
  ntrunc (rd_atof rd zone) = Some tz ->
  exists e', loadFile rd (Some content) e = Ok e' /\ year_table (ep_data e') /\
    ep_site e' = Some (rd_atof rd lat, rd_atof rd lon, tz) /\ ep_location e' = loc /\ ep_station e' = sta /\
    forall r line fs col pos f, (Z.of_nat r < 8760)%Z -> nth_error ls (8 + r) = Some line -> has_fields line fs ->
      In (col, pos) epw_format -> nth_error fs (pos - 1) = Some f ->
      cell (ep_data e') col r = Some (rd_atof rd f).
Proof.
  intros content ls e h hf lat lon zone loc sta tz L LS H0 HF F1 F5 F6 F7 F8 TZ.
  pose proof (loadFile_spec rd content e L) as P.
  rewrite (hd_nth _ _ (goodlines_nth _ _ _ _ LS H0)) in P.
  assert (Q : forall i f d, i < 10 -> nth_error hf i = Some f -> nth i (fields 10 h) d = f).
  { intros i f d HI E. rewrite (nth_fields 10 h hf i d HF HI). apply nth_last_len. exact E. }
  unfold header in P. cbv zeta in P.
  rewrite (Q 8 zone [] ltac:(lia) F8), TZ, (Q 6 lat [] ltac:(lia) F6), (Q 7 lon [] ltac:(lia) F7), (Q 1 loc [] ltac:(lia) F1), (Q 5 sta [] ltac:(lia) F5) in P.
  destruct P as (e'&E'&T'&S'&L'&N'&C'). exists e'. split; [exact E'|]. split; [apply table_year; exact T'|].
  split; [exact S'|]. split; [exact L'|]. split; [exact N'|].
  intros r line fs col pos f HR HL HF' I E. pose proof slices_Z as SZ.
  rewrite C' by (try lia; eapply format_cols; exact I). rewrite (goodlines_nth _ _ _ _ LS HL).
  rewrite (source_eq line fs col pos HF' I). f_equal. f_equal. apply nth_last_len. exact E.
Qed.

(** Two tables with the same cells are equal. *)
Lemma table_ext : forall rows A (a b : list (list A)), table rows a -> table rows b ->
  (forall c r, c < 7 -> r < rows -> cell a c r = cell b c r) -> a = b.
Proof.
  intros rows A a b (LA&FA) (LB&FB) H. apply nth_error_ext. intros c.
  destruct (Nat.lt_ge_cases c 7) as [HC|HC].
  - destruct (nth_error a c) as [v|] eqn:EA; [|apply nth_error_None in EA; lia].
    destruct (nth_error b c) as [w|] eqn:EB; [|apply nth_error_None in EB; lia]. f_equal.
    pose proof (proj1 (Forall_forall _ _) FA v (nth_error_In _ _ EA)) as LV.
    pose proof (proj1 (Forall_forall _ _) FB w (nth_error_In _ _ EB)) as LW. cbn in LV, LW.
    apply nth_error_ext. intros r. destruct (Nat.lt_ge_cases r rows) as [HR|HR].
    + specialize (H c r HC HR). unfold cell in H. rewrite EA, EB in H. exact H.
    + rewrite (proj2 (nth_error_None v r)), (proj2 (nth_error_None w r)) by lia. reflexivity.
  - rewrite (proj2 (nth_error_None a c)), (proj2 (nth_error_None b c)) by lia. reflexivity.
Qed.

Lemma C36_determined_l : forall content1 content2 ls more1 more2 (e1 e2 : epw T),
  List.length (ep_data e1) = 7 -> List.length (ep_data e2) = 7 ->
  is_lines content1 (ls ++ more1) -> is_lines content2 (ls ++ more2) -> (8768 <= Z.of_nat (List.length ls))%Z ->
  loadFile rd (Some content1) e1 = loadFile rd (Some content2) e2.
Proof.
  intros content1 content2 ls more1 more2 e1 e2 L1 L2 LS1 LS2 HL.
  pose proof (loadFile_spec rd content1 e1 L1) as P1. pose proof (loadFile_spec rd content2 e2 L2) as P2.
  assert (G : forall k, k < List.length ls -> exists l, nth_error (goodlines [] content1) k = Some l /\ nth_error (goodlines [] content2) k = Some l).
  { intros k HK. destruct (nth_error ls k) as [l|] eqn:E; [|apply nth_error_None in E; lia].
    exists l. split; (eapply goodlines_nth; [eassumption|]); rewrite nth_error_app1 by exact HK; exact E. }
  destruct (G 0 ltac:(lia)) as (h&G1&G2). rewrite (hd_nth _ _ G1) in P1. rewrite (hd_nth _ _ G2) in P2.
  destruct (header rd h) as [site|]; [|congruence].
  destruct P1 as (f1&->&T1&S1&LO1&ST1&C1). destruct P2 as (f2&->&T2&S2&LO2&ST2&C2). f_equal.
  assert (D : ep_data f1 = ep_data f2).
  { eapply table_ext; [exact T1|exact T2|]. intros c r HC HR. rewrite C1, C2 by assumption.
    pose proof slices_Z as SZ. destruct (G (8 + r) ltac:(lia)) as (l&->&->). reflexivity. }
  destruct f1, f2. cbn in *. congruence.
Qed.

Lemma C37_missing_field_l : forall content ls (e e' : epw T) r line fs col pos,
  List.length (ep_data e) = 7 -> is_lines content ls -> loadFile rd (Some content) e = Ok e' ->
  (Z.of_nat r < 8760)%Z -> nth_error ls (8 + r) = Some line -> has_fields line fs -> In (col, pos) epw_format ->
  List.length fs < pos -> cell (ep_data e') col r = Some (rd_atof rd (last fs [])).
Proof.
  intros content ls e e' r line fs col pos L LS E HR HL HF I HP.
  pose proof (loadFile_spec rd content e L) as P. destruct (header rd (hd [] (goodlines [] content))) as [site|]; [|congruence].
  destruct P as (f&E'&_&_&_&_&C'). assert (f = e') as -> by congruence. pose proof slices_Z as SZ.
  rewrite C' by (try lia; eapply format_cols; exact I). rewrite (goodlines_nth _ _ _ _ LS HL).
  rewrite (source_eq line fs col pos HF I). rewrite nth_overflow by lia. reflexivity.
Qed.

Lemma C37_short_file_l : forall content ls (e e' : epw T) r col x,
  List.length (ep_data e) = 7 -> is_lines content ls -> loadFile rd (Some content) e = Ok e' ->
  (Z.of_nat r < 8760)%Z -> List.length ls < 8 + r -> cell (ep_data e) col r = Some x -> col < 7 ->
  cell (ep_data e') col r = Some x.
Proof.
  intros content ls e e' r col x L LS E HR HL HX HC.
  pose proof (loadFile_spec rd content e L) as P. destruct (header rd (hd [] (goodlines [] content))) as [site|]; [|congruence].
  destruct P as (f&E'&_&_&_&_&C'). assert (f = e') as -> by congruence. pose proof slices_Z as SZ.
  rewrite C' by (try lia; exact HC). rewrite (proj2 (nth_error_None (goodlines [] content) (8 + r))).
  - rewrite HX. reflexivity.
  - destruct (goodlines_is_lines content ls LS) as [->|(->&_)]; [rewrite app_length; cbn|]; lia.
Qed.

(** Loading keeps seven columns, so the hypothesis on the object holds after every history. *)
Lemma loadFile_columns : forall file (e e' : epw T), List.length (ep_data e) = 7 -> loadFile rd file e = Ok e' -> List.length (ep_data e') = 7.
Proof.
  intros [content|] e e' L E.
  - pose proof (loadFile_spec rd content e L) as P. destruct (header rd (hd [] (goodlines [] content))) as [site|]; [|congruence].
    destruct P as (f&E'&(LT&_)&_). congruence.
  - cbn in E. injection E as <-. cbn. rewrite map_length. exact L.
Qed.
End Epw.

Section Block.
Context {T : Type} {N : Num T}.

Lemma zrange_S : forall n lo, zrange lo (Z.of_nat (S n)) = lo :: zrange (lo + 1) (Z.of_nat n).
Proof.
  intros n lo. unfold zrange. rewrite !Nat2Z.id. cbn [seq map]. f_equal; [lia|]. rewrite <- seq_shift, map_map.
  apply map_ext. intros k. lia.
Qed.

Lemma copyValue_ok : forall (values : list T) n lo col ptr, (lo + n <= List.length col) -> ptr + n <= List.length values ->
  exists col', ofold (copyValue values) (zrange (Z.of_nat lo) (Z.of_nat n)) (col, ptr) = Ok (col', ptr + n) /\
    List.length col' = List.length col /\
    forall k, nth_error col' k = if (lo <=? k)%nat && (k <? lo + n)%nat then nth_error values (ptr + (k - lo)) else nth_error col k.
Proof.
  intros values. induction n as [|n IH]; intros lo col ptr H1 H2.
  - exists col. split; [cbn [ofold zrange Z.of_nat Z.to_nat seq map]; rewrite Nat.add_0_r; reflexivity|].
    split; [reflexivity|]. intros k.
    destruct (Nat.leb_spec lo k) as [A|A]; cbn [andb]; [|reflexivity].
    destruct (Nat.ltb_spec k (lo + 0)) as [B|B]; [lia|reflexivity].
  - rewrite zrange_S. cbn [ofold]. unfold copyValue at 1. cbn [fst snd]. unfold vget.
    destruct (nth_error values ptr) as [x|] eqn:E; [|apply nth_error_None in E; lia]. cbn [obind].
    rewrite Nat2Z.id. rewrite vset_ok by lia. cbn [obind].
    replace (Z.of_nat lo + 1)%Z with (Z.of_nat (S lo)) by lia.
    destruct (IH (S lo) (upd col lo x) (S ptr)) as (col'&E'&L'&C'); [rewrite upd_length; lia|lia|].
    exists col'. split; [rewrite E'; f_equal; f_equal; lia|]. split; [rewrite L'; apply upd_length|].
    intros k. rewrite C'. destruct (Nat.leb_spec (S lo) k) as [A|A]; cbn [andb].
    + rewrite (proj2 (Nat.leb_le lo k)) by lia. cbn [andb]. replace (S lo + n) with (lo + S n) by lia.
      destruct (Nat.ltb_spec k (lo + S n)) as [B|B]; [f_equal; lia|apply upd_other; lia].
    + destruct (Nat.eq_dec k lo) as [->|NK].
      * rewrite (proj2 (Nat.leb_le lo lo)) by lia. rewrite (proj2 (Nat.ltb_lt lo (lo + S n))) by lia. cbn [andb].
        rewrite Nat.sub_diag, Nat.add_0_r, E. apply upd_same. lia.
      * rewrite (proj2 (Nat.leb_gt lo k)) by lia. cbn [andb]. apply upd_other. lia.
Qed.


Lemma copyColumn_ok : forall size (values : list T) data c ptr,
  c < 7 -> List.length data = 7 -> size <= slices -> ptr + size <= List.length values ->
  exists data', copyColumn (Z.of_nat size) values (data, ptr) (Z.of_nat c) = Ok (data', ptr + size) /\ List.length data' = 7 /\
    (forall r, r < slices -> cell data' c r = if (r <? size)%nat then nth_error values (ptr + r)
        else Some (match cell data c r with Some x => x | None => zn 0 end)) /\
    (exists v, nth_error data' c = Some v /\ List.length v = slices) /\
    forall c', c' <> c -> nth_error data' c' = nth_error data c'.
Proof.
  intros size values data c ptr HC L HS HV. unfold copyColumn. cbn [fst snd]. rewrite Nat2Z.id. unfold vget.
  destruct (nth_error data c) as [v|] eqn:E; [|apply nth_error_None in E; lia]. cbn [obind].
  destruct (copyValue_ok values size 0 (resize slices v) ptr) as (col'&E'&L'&C'); [rewrite resize_length; lia|exact HV|].
  change 0%Z with (Z.of_nat 0). rewrite E'. cbn [obind fst snd]. rewrite vset_ok by lia. cbn [obind].
  eexists. split; [reflexivity|]. split; [rewrite upd_length; exact L|]. split; [|split].
  - intros r HR. unfold cell. rewrite upd_same by lia. rewrite C'. cbn [Nat.leb andb plus]. rewrite Nat.sub_0_r.
    destruct (r <? size)%nat; [reflexivity|]. rewrite E. apply resize_nth. exact HR.
  - exists col'. split; [apply upd_same; lia|]. rewrite L'. apply resize_length.
  - intros c' H. apply upd_other. congruence.
Qed.

Lemma copyValue_ub : forall (values : list T) n lo col ptr, lo <= List.length col -> ptr <= List.length values ->
  (List.length col < lo + n \/ List.length values < ptr + n) ->
  ofold (copyValue values) (zrange (Z.of_nat lo) (Z.of_nat n)) (col, ptr) = UB.
Proof.
  intros values. induction n as [|n IH]; intros lo col ptr H1 H2 H3; [exfalso; lia|].
  rewrite zrange_S. cbn [ofold]. unfold copyValue at 1. cbn [fst snd]. unfold vget.
  destruct (nth_error values ptr) as [x|] eqn:E; [|reflexivity]. cbn [obind].
  assert (ptr < List.length values) by (apply nth_error_Some; congruence).
  rewrite Nat2Z.id. destruct (Nat.lt_ge_cases lo (List.length col)) as [A|A].
  - rewrite vset_ok by exact A. cbn [obind]. replace (Z.of_nat lo + 1)%Z with (Z.of_nat (S lo)) by lia.
    apply IH; rewrite ?upd_length; lia.
  - unfold vset. rewrite (proj2 (Nat.ltb_ge _ _)) by lia. reflexivity.
Qed.

Lemma copyColumn_ub : forall size (values : list T) data c ptr,
  c < 7 -> List.length data = 7 -> ptr <= List.length values -> (slices < size \/ List.length values < ptr + size) ->
  copyColumn (Z.of_nat size) values (data, ptr) (Z.of_nat c) = UB.
Proof.
  intros size values data c ptr HC L HP H. unfold copyColumn. cbn [fst snd]. rewrite Nat2Z.id. unfold vget.
  destruct (nth_error data c) as [v|] eqn:E; [|apply nth_error_None in E; lia]. cbn [obind].
  change 0%Z with (Z.of_nat 0). rewrite copyValue_ub; [reflexivity|lia|exact HP|]. rewrite resize_length. lia.
Qed.

Definition block_cell (size : nat) (values : list T) (data : list (list T)) (c r : nat) : option T :=
  if (r <? size)%nat then nth_error values (3 + c * size + r)
  else Some (match cell data c r with Some x => x | None => zn 0 end).

Lemma copyColumns_ok : forall size (values : list T) n c data,
  c + n <= 7 -> List.length data = 7 -> size <= slices -> 3 + (c + n) * size <= List.length values ->
  exists data', ofold (copyColumn (Z.of_nat size) values) (zrange (Z.of_nat c) (Z.of_nat n)) (data, 3 + c * size) = Ok (data', 3 + (c + n) * size) /\
    List.length data' = 7 /\
    (forall k, k < c \/ c + n <= k -> nth_error data' k = nth_error data k) /\
    (forall k r, c <= k < c + n -> r < slices -> cell data' k r = block_cell size values data k r) /\
    (forall k, c <= k < c + n -> exists v, nth_error data' k = Some v /\ List.length v = slices).
Proof.
  intros size values. induction n as [|n IH]; intros c data HC L HS HV.
  - exists data. rewrite Nat.add_0_r. split; [reflexivity|]. split; [exact L|]. split; [reflexivity|]. split; intros; lia.
  - rewrite zrange_S. cbn [ofold].
    destruct (copyColumn_ok size values data c (3 + c * size)) as (d1&E1&L1&C1&V1&O1); [lia|exact L|exact HS|nia|].
    rewrite E1. cbn [obind]. replace (3 + c * size + size) with (3 + S c * size) by lia.
    replace (Z.of_nat c + 1)%Z with (Z.of_nat (S c)) by lia.
    destruct (IH (S c) d1) as (d2&E2&L2&O2&C2&V2); [lia|exact L1|exact HS|nia|].
    exists d2. rewrite E2. split; [f_equal; f_equal; lia|]. split; [exact L2|]. split; [|split].
    + intros k HK. rewrite O2 by lia. apply O1. lia.
    + intros k r HK HR. destruct (Nat.eq_dec k c) as [->|NK].
      * unfold cell. rewrite O2 by lia. fold (cell d1 c r). rewrite C1 by exact HR. reflexivity.
      * rewrite C2 by (try exact HR; lia). unfold block_cell, cell. rewrite O1 by exact NK. reflexivity.
    + intros k HK. destruct (Nat.eq_dec k c) as [->|NK]; [rewrite O2 by lia; exact V1|apply V2; lia].
Qed.

Lemma loadBlock_ok : forall size (values : list T) e lat lon zone tz,
  List.length (ep_data e) = 7 -> size <= slices -> 3 + 7 * size <= List.length values ->
  nth_error values 0 = Some lat -> nth_error values 1 = Some lon -> nth_error values 2 = Some zone -> ntrunc zone = Some tz ->
  exists e', loadBlock (Z.of_nat size) values e = Ok e' /\ table slices (ep_data e') /\ ep_site e' = Some (lat, lon, tz) /\
    ep_location e' = ep_location e /\ ep_station e' = ep_station e /\
    forall c r, c < 7 -> r < slices -> cell (ep_data e') c r = block_cell size values (ep_data e) c r.
Proof.
  intros size values e lat lon zone tz L HS HV V0 V1 V2 TZ. unfold loadBlock, vget. rewrite V0, V1, V2. cbn [obind]. rewrite TZ.
  destruct (copyColumns_ok size values 7 0 (ep_data e)) as (d&E&LD&_&C&V); [lia|exact L|exact HS|lia|].
  change (3 + 0 * size) with 3 in E. change (zrange (Z.of_nat 0) (Z.of_nat 7)) with (zrange 0 7) in E. rewrite E. cbn [obind fst].
  eexists. split; [reflexivity|]. cbn [ep_data ep_site ep_location ep_station]. split; [|split; [reflexivity|split; [reflexivity|split; [reflexivity|]]]].
  - split; [exact LD|]. apply Forall_forall. intros v I. apply In_nth_error in I. destruct I as [k I].
    assert (k < 7) by (rewrite <- LD; apply nth_error_Some; congruence).
    destruct (V k) as (v'&I'&LV); [lia|]. congruence.
  - intros c r HC HR. apply C; lia.
Qed.

Lemma loadBlock_ub : forall size (values : list T) e, List.length (ep_data e) = 7 ->
  (8760 < Z.of_nat size)%Z \/ List.length values < 3 + 7 * size ->
  loadBlock (Z.of_nat size) values e = UB.
Proof.
  intros size values e L H. unfold loadBlock. unfold vget.
  destruct (nth_error values 0) as [a|] eqn:E0; [|reflexivity]. cbn [obind].
  destruct (nth_error values 1) as [b|] eqn:E1; [|reflexivity]. cbn [obind].
  destruct (nth_error values 2) as [z|] eqn:E2; [|reflexivity]. cbn [obind].
  destruct (ntrunc z) as [tz|]; [|reflexivity].
  assert (LV : 3 <= List.length values) by (apply (proj1 (nth_error_Some values 2)); congruence). pose proof slices_Z as SZ.
  enough (ofold (copyColumn (Z.of_nat size) values) (zrange 0 7) (ep_data e, 3) = UB) as -> by reflexivity.
  destruct (Nat.lt_ge_cases slices size) as [A|A].
  - change (zrange 0 7) with (Z.of_nat 0 :: zrange 1 6). cbn [ofold]. rewrite copyColumn_ub; [reflexivity|lia|exact L|lia|lia].
  - destruct H as [H|H]; [lia|].
    assert (G : forall n c data, c + n = 7 -> List.length data = 7 -> 3 + c * size <= List.length values ->
       ofold (copyColumn (Z.of_nat size) values) (zrange (Z.of_nat c) (Z.of_nat n)) (data, 3 + c * size) = UB).
    { induction n as [|n IH]; intros c data HC LD HP; [exfalso; assert (c = 7) by lia; subst; lia|].
      rewrite zrange_S. cbn [ofold].
      destruct (Nat.lt_ge_cases (List.length values) (3 + c * size + size)) as [B|B].
      - rewrite copyColumn_ub; [reflexivity|lia|exact LD|exact HP|right; exact B].
      - destruct (copyColumn_ok size values data c (3 + c * size)) as (d1&E&L1&_); [lia|exact LD|exact A|exact B|].
        rewrite E. cbn [obind]. replace (3 + c * size + size) with (3 + S c * size) by lia.
        replace (Z.of_nat c + 1)%Z with (Z.of_nat (S c)) by lia. apply IH; lia. }
    apply (G 7 0 (ep_data e)); [reflexivity|exact L|lia].
Qed.

Lemma C38_block_l : forall size (values : list T) e lat lon zone tz,
  List.length (ep_data e) = 7 -> (Z.of_nat size <= 8760)%Z -> 3 + 7 * size <= List.length values ->
  nth_error values 0 = Some lat -> nth_error values 1 = Some lon -> nth_error values 2 = Some zone -> ntrunc zone = Some tz ->
  exists e', loadBlock (Z.of_nat size) values e = Ok e' /\ year_table (ep_data e') /\ ep_site e' = Some (lat, lon, tz) /\
    (forall c i, c < 7 -> i < size -> cell (ep_data e') c i = nth_error values (c * size + i + 3)) /\
    (forall c i, c < 7 -> size <= i -> (Z.of_nat i < 8760)%Z ->
       cell (ep_data e') c i = Some (match cell (ep_data e) c i with Some x => x | None => zn 0 end)).
Proof.
  intros size values e lat lon zone tz L HS HV V0 V1 V2 TZ. pose proof slices_Z as SZ.
  destruct (loadBlock_ok size values e lat lon zone tz L ltac:(lia) HV V0 V1 V2 TZ) as (e'&E&TB&S&_&_&C).
  exists e'. split; [exact E|]. split; [apply table_year; exact TB|]. split; [exact S|]. split.
  - intros c i HC HI. rewrite C by lia. unfold block_cell. rewrite (proj2 (Nat.ltb_lt _ _) HI). f_equal. lia.
  - intros c i HC HI HI2. rewrite C by lia. unfold block_cell. rewrite (proj2 (Nat.ltb_ge _ _) HI). reflexivity.
Qed.

Lemma loadBlock_columns : forall size (values : list T) e e', List.length (ep_data e) = 7 ->
  loadBlock size values e = Ok e' -> List.length (ep_data e') = 7.
Proof.
  intros size values e e' L E. destruct (Z.le_gt_cases 0 size) as [A|A].
  - replace size with (Z.of_nat (Z.to_nat size)) in E by lia.
    destruct (Z.lt_ge_cases 8760 (Z.of_nat (Z.to_nat size))) as [B|B]; [rewrite loadBlock_ub in E by auto; discriminate|].
    destruct (Nat.lt_ge_cases (List.length values) (3 + 7 * Z.to_nat size)) as [D|D]; [rewrite loadBlock_ub in E by auto; discriminate|].
    pose proof slices_Z as SZ.
    destruct (nth_error values 0) as [a|] eqn:E0; [|unfold loadBlock, vget in E; rewrite E0 in E; discriminate].
    destruct (nth_error values 1) as [b|] eqn:E1; [|unfold loadBlock, vget in E; rewrite E0, E1 in E; discriminate].
    destruct (nth_error values 2) as [z|] eqn:E2; [|unfold loadBlock, vget in E; rewrite E0, E1, E2 in E; discriminate].
    destruct (ntrunc z) as [tz|] eqn:EZ; [|unfold loadBlock, vget in E; rewrite E0, E1, E2 in E; cbn [obind] in E; rewrite EZ in E; discriminate].
    destruct (loadBlock_ok (Z.to_nat size) values e a b z tz L ltac:(lia) D E0 E1 E2 EZ) as (f&F&(LT&_)&_).
    rewrite F in E. injection E as <-. exact LT.
  - (* a negative size copies nothing, as size 0 does *)
    assert (E' : loadBlock (Z.of_nat 0) values e = Ok e').
    { rewrite <- E. unfold loadBlock, copyColumn, zrange. replace (Z.to_nat size) with 0 by lia. reflexivity. }
    clear E. destruct (Nat.lt_ge_cases (List.length values) 3) as [D|D]; [rewrite loadBlock_ub in E' by (auto; right; lia); discriminate|].
    destruct (nth_error values 0) as [a|] eqn:E0; [|apply nth_error_None in E0; lia].
    destruct (nth_error values 1) as [b|] eqn:E1; [|apply nth_error_None in E1; lia].
    destruct (nth_error values 2) as [z|] eqn:E2; [|apply nth_error_None in E2; lia].
    destruct (ntrunc z) as [tz|] eqn:EZ; [|unfold loadBlock, vget in E'; rewrite E0, E1, E2 in E'; cbn [obind] in E'; rewrite EZ in E'; discriminate].
    destruct (loadBlock_ok 0 values e a b z tz L ltac:(lia) ltac:(lia) E0 E1 E2 EZ) as (f&F&(LT&_)&_).
    rewrite F in E'. injection E' as <-. exact LT.
Qed.
End Block.

Lemma C37_complete_l : forall T (N : Num T) (rd : reader T) content ls (e : epw T),
  List.length (ep_data e) = 7 -> is_lines content ls -> (8768 <= Z.of_nat (List.length ls))%Z ->
  loadFile rd (Some content) e = loadFile rd (Some content) newEpw.
Proof.
  intros T N rd content ls e L LS H.
  apply (C36_determined_l rd content content ls [] [] e newEpw L eq_refl); rewrite ?app_nil_r; assumption.
Qed.
Lemma C36_no_file_l : forall T (N : Num T) (rd : reader T) (e e' : epw T), loadFile rd None e = Ok e' ->
  ep_site e' = ep_site e /\ forall c r x, cell (ep_data e) c r = Some x -> (Z.of_nat r < 8760)%Z -> cell (ep_data e') c r = Some x.
Proof.
  intros T N rd e e' E. cbn in E. apply ok_eq in E. subst e'. cbn [ep_site ep_data]. split; [reflexivity|].
  intros c r x H HR. unfold cell in *. rewrite nth_error_map. destruct (nth_error (ep_data e) c) as [v|]; [|discriminate].
  cbn [option_map]. rewrite resize_nth by (pose proof slices_Z; lia). rewrite H. reflexivity.
Qed.
Lemma C38_large_l : forall T (N : Num T), exists size (values : list T),
  Z.of_nat size = 8761%Z /\ List.length values = 3 + 7 * size /\ loadBlock (Z.of_nat size) values newEpw = UB.
Proof.
  intros T N. exists (S slices), (repeat (zn 0) (3 + 7 * S slices)). pose proof slices_Z as SZ.
  split; [lia|]. split; [apply repeat_length|]. apply loadBlock_ub; [reflexivity|]. left. lia.
Qed.
