(** The weather summary text: the six tables and the round trip. *)
From Coq Require Import Ascii String ZArith Lia.
From Verif Require Import Base Num Text M_Text M_TimeFrame M_Properties M_Epw M_Solar M_IsoText S_Text S_Epw S_Solar S_Weather L_Text L_Properties L_HourlyShape L_Epw L_Solar L_Solar2 L_Solar3 L_Solar5 L_IsoText.
Open Scope nat_scope.
Open Scope list_scope.

Lemma header_name : forall name : text, (forallb (fun c => negb (Ascii.eqb c ",") && negb (Ascii.eqb c newline) && negb (Ascii.eqb c "#")) name)%char = true -> name <> [] -> header name.
Proof.
  intros name H NE. destruct name as [|c t]; [congruence|]. rewrite forallb_forall in H. exists c, t. split; [reflexivity|].
  assert (G : forall d, In d (c :: t) -> d <> ","%char /\ d <> newline /\ d <> "#"%char).
  { intros d I. specialize (H d I). rewrite !andb_true_iff, !negb_true_iff, !Ascii.eqb_neq in H. tauto. }
  split; [apply (G c); left; reflexivity|]. split; intros I; destruct (G _ I) as (A&B&_); congruence.
Qed.
Lemma upd_length : forall A (v : list A) i x, length (upd v i x) = length v.
Proof. induction v as [|y v IH]; intros [|i] x; cbn [upd length]; try reflexivity. rewrite IH. reflexivity. Qed.
Lemma Forall_upd : forall A (P : A -> Prop) v i x, Forall P v -> P x -> Forall P (upd v i x).
Proof. induction v as [|y v IH]; intros [|i] x F Px; cbn [upd]; try constructor; inversion F; subst; auto. Qed.

Section Tables.
Context {T : Type} {N : Num T}.
Variable fmt : T -> text.
Variable rd : reader T.
Let got (x : T) : option T := Some (rd_atof rd (fmt x)).

Definition put_mdbt (v : list (option T)) (w : weather T) : weather T := mkWd (wd_msolar w) (wd_mhdbt w) (wd_mhEgh w) (wd_mEgh w) v (wd_mwind w).
Lemma put_mdbt_fold : forall f l w, fold_left (fun w j => put_mdbt (upd (wd_mdbt w) j (f j)) w) l w = put_mdbt (fold_left (fun v j => upd v j (f j)) l (wd_mdbt w)) w.
Proof. induction l as [|j l IH]; intros w; [destruct w; reflexivity|]. cbn [fold_left]. rewrite IH. reflexivity. Qed.

Definition put_mwind (v : list (option T)) (w : weather T) : weather T := mkWd (wd_msolar w) (wd_mhdbt w) (wd_mhEgh w) (wd_mEgh w) (wd_mdbt w) v.
Lemma put_mwind_fold : forall f l w, fold_left (fun w j => put_mwind (upd (wd_mwind w) j (f j)) w) l w = put_mwind (fold_left (fun v j => upd v j (f j)) l (wd_mwind w)) w.
Proof. induction l as [|j l IH]; intros w; [destruct w; reflexivity|]. cbn [fold_left]. rewrite IH. reflexivity. Qed.

Definition put_mEgh (v : list (option T)) (w : weather T) : weather T := mkWd (wd_msolar w) (wd_mhdbt w) (wd_mhEgh w) v (wd_mdbt w) (wd_mwind w).
Lemma put_mEgh_fold : forall f l w, fold_left (fun w j => put_mEgh (upd (wd_mEgh w) j (f j)) w) l w = put_mEgh (fold_left (fun v j => upd v j (f j)) l (wd_mEgh w)) w.
Proof. induction l as [|j l IH]; intros w; [destruct w; reflexivity|]. cbn [fold_left]. rewrite IH. reflexivity. Qed.

Definition put_hdbt (v : list (list (option T))) (w : weather T) : weather T := mkWd (wd_msolar w) v (wd_mhEgh w) (wd_mEgh w) (wd_mdbt w) (wd_mwind w).
Lemma put_hdbt_fold : forall f l w, fold_left (fun w j => put_hdbt (upd (wd_mhdbt w) j (f j)) w) l w = put_hdbt (fold_left (fun v j => upd v j (f j)) l (wd_mhdbt w)) w.
Proof. induction l as [|j l IH]; intros w; [destruct w; reflexivity|]. cbn [fold_left]. rewrite IH. reflexivity. Qed.

Definition put_hEgh (v : list (list (option T))) (w : weather T) : weather T := mkWd (wd_msolar w) (wd_mhdbt w) v (wd_mEgh w) (wd_mdbt w) (wd_mwind w).
Lemma put_hEgh_fold : forall f l w, fold_left (fun w j => put_hEgh (upd (wd_mhEgh w) j (f j)) w) l w = put_hEgh (fold_left (fun v j => upd v j (f j)) l (wd_mhEgh w)) w.
Proof. induction l as [|j l IH]; intros w; [destruct w; reflexivity|]. cbn [fold_left]. rewrite IH. reflexivity. Qed.

Definition put_solar (v : list (list (option T))) (w : weather T) : weather T := mkWd v (wd_mhdbt w) (wd_mhEgh w) (wd_mEgh w) (wd_mdbt w) (wd_mwind w).
Lemma put_solar_fold : forall f l w, fold_left (fun w j => put_solar (upd (wd_msolar w) j (f j)) w) l w = put_solar (fold_left (fun v j => upd v j (f j)) l (wd_msolar w)) w.
Proof. induction l as [|j l IH]; intros w; [destruct w; reflexivity|]. cbn [fold_left]. rewrite IH. reflexivity. Qed.

Hypothesis W : writes_numbers fmt.

Lemma read_mdbt : forall (x : nat -> T) st i w, iso_shape w ->
  ofold (isoLine rd) (tx "mdbt" :: map (fun j => row_line fmt j [x j]) (seq 0 12)) (st, i, w) = Ok (5%Z, 12, put_mdbt (map (fun j => got (x j)) (seq 0 12)) w) /\
  iso_shape (put_mdbt (map (fun j => got (x j)) (seq 0 12)) w).
Proof.
  intros x st i w SH. split.
  - rewrite (table_read fmt rd W 5 (tx "mdbt") (fun j => [x j]) (fun j w => put_mdbt (upd (wd_mdbt w) j (got (x j))) w)).
    + rewrite put_mdbt_fold, upd_all; [reflexivity|]. apply SH.
    + apply header_name; [reflexivity|discriminate].
    + reflexivity.
    + discriminate.
    + intros j [so hd he me md mw] HJ S. split.
      * unfold fillTable. cbn [Z.eqb Pos.eqb]. rewrite (fillVector_ok fmt rd) by (unfold iso_shape in S; cbn in S; intuition lia). reflexivity.
      * unfold iso_shape in *. cbn [put_mdbt wd_msolar wd_mhdbt wd_mhEgh wd_mEgh wd_mdbt wd_mwind] in *. rewrite upd_length. exact S.
    + exact SH.
  - unfold iso_shape in *. cbn [put_mdbt wd_msolar wd_mhdbt wd_mhEgh wd_mEgh wd_mdbt wd_mwind] in *. rewrite map_length, seq_length. intuition.
Qed.

Lemma read_mwind : forall (x : nat -> T) st i w, iso_shape w ->
  ofold (isoLine rd) (tx "mwind" :: map (fun j => row_line fmt j [x j]) (seq 0 12)) (st, i, w) = Ok (6%Z, 12, put_mwind (map (fun j => got (x j)) (seq 0 12)) w) /\
  iso_shape (put_mwind (map (fun j => got (x j)) (seq 0 12)) w).
Proof.
  intros x st i w SH. split.
  - rewrite (table_read fmt rd W 6 (tx "mwind") (fun j => [x j]) (fun j w => put_mwind (upd (wd_mwind w) j (got (x j))) w)).
    + rewrite put_mwind_fold, upd_all; [reflexivity|]. apply SH.
    + apply header_name; [reflexivity|discriminate].
    + reflexivity.
    + discriminate.
    + intros j [so hd he me md mw] HJ S. split.
      * unfold fillTable. cbn [Z.eqb Pos.eqb]. rewrite (fillVector_ok fmt rd) by (unfold iso_shape in S; cbn in S; intuition lia). reflexivity.
      * unfold iso_shape in *. cbn [put_mwind wd_msolar wd_mhdbt wd_mhEgh wd_mEgh wd_mdbt wd_mwind] in *. rewrite upd_length. exact S.
    + exact SH.
  - unfold iso_shape in *. cbn [put_mwind wd_msolar wd_mhdbt wd_mhEgh wd_mEgh wd_mdbt wd_mwind] in *. rewrite map_length, seq_length. intuition.
Qed.

Lemma read_mEgh : forall (x : nat -> T) st i w, iso_shape w ->
  ofold (isoLine rd) (tx "mEgh" :: map (fun j => row_line fmt j [x j]) (seq 0 12)) (st, i, w) = Ok (4%Z, 12, put_mEgh (map (fun j => got (x j)) (seq 0 12)) w) /\
  iso_shape (put_mEgh (map (fun j => got (x j)) (seq 0 12)) w).
Proof.
  intros x st i w SH. split.
  - rewrite (table_read fmt rd W 4 (tx "mEgh") (fun j => [x j]) (fun j w => put_mEgh (upd (wd_mEgh w) j (got (x j))) w)).
    + rewrite put_mEgh_fold, upd_all; [reflexivity|]. apply SH.
    + apply header_name; [reflexivity|discriminate].
    + reflexivity.
    + discriminate.
    + intros j [so hd he me md mw] HJ S. split.
      * unfold fillTable. cbn [Z.eqb Pos.eqb]. rewrite (fillVector_ok fmt rd) by (unfold iso_shape in S; cbn in S; intuition lia). reflexivity.
      * unfold iso_shape in *. cbn [put_mEgh wd_msolar wd_mhdbt wd_mhEgh wd_mEgh wd_mdbt wd_mwind] in *. rewrite upd_length. exact S.
    + exact SH.
  - unfold iso_shape in *. cbn [put_mEgh wd_msolar wd_mhdbt wd_mhEgh wd_mEgh wd_mdbt wd_mwind] in *. rewrite map_length, seq_length. intuition.
Qed.

Lemma read_hdbt : forall (x : nat -> list T) st i w, (forall j, length (x j) = 24) -> iso_shape w ->
  ofold (isoLine rd) (tx "hdbt" :: map (fun j => row_line fmt j (x j)) (seq 0 12)) (st, i, w) = Ok (2%Z, 12, put_hdbt (map (fun j => map got (x j)) (seq 0 12)) w) /\
  iso_shape (put_hdbt (map (fun j => map got (x j)) (seq 0 12)) w).
Proof.
  intros x st i w LX SH. split.
  - rewrite (table_read fmt rd W 2 (tx "hdbt") x (fun j w => put_hdbt (upd (wd_mhdbt w) j (map got (x j))) w)).
    + rewrite put_hdbt_fold, upd_all; [reflexivity|]. apply SH.
    + apply header_name; [reflexivity|discriminate].
    + reflexivity.
    + intros j E. specialize (LX j). rewrite E in LX. discriminate.
    + intros j [so hd he me md mw] HJ S. split.
      * unfold fillTable. cbn [Z.eqb Pos.eqb]. rewrite (fillMatrix_ok fmt rd) by (unfold iso_shape in S; cbn in S; first [apply LX | lia | tauto]). reflexivity.
      * unfold iso_shape in *. cbn [put_hdbt wd_msolar wd_mhdbt wd_mhEgh wd_mEgh wd_mdbt wd_mwind] in *. rewrite upd_length.
        intuition; apply Forall_upd; try assumption; rewrite map_length; apply LX.
    + exact SH.
  - unfold iso_shape in *. cbn [put_hdbt wd_msolar wd_mhdbt wd_mhEgh wd_mEgh wd_mdbt wd_mwind] in *. rewrite map_length, seq_length.
    intuition; apply Forall_forall; intros r I; apply in_map_iff in I; destruct I as (j&<-&_); rewrite map_length; apply LX.
Qed.

Lemma read_hEgh : forall (x : nat -> list T) st i w, (forall j, length (x j) = 24) -> iso_shape w ->
  ofold (isoLine rd) (tx "hEgh" :: map (fun j => row_line fmt j (x j)) (seq 0 12)) (st, i, w) = Ok (3%Z, 12, put_hEgh (map (fun j => map got (x j)) (seq 0 12)) w) /\
  iso_shape (put_hEgh (map (fun j => map got (x j)) (seq 0 12)) w).
Proof.
  intros x st i w LX SH. split.
  - rewrite (table_read fmt rd W 3 (tx "hEgh") x (fun j w => put_hEgh (upd (wd_mhEgh w) j (map got (x j))) w)).
    + rewrite put_hEgh_fold, upd_all; [reflexivity|]. apply SH.
    + apply header_name; [reflexivity|discriminate].
    + reflexivity.
    + intros j E. specialize (LX j). rewrite E in LX. discriminate.
    + intros j [so hd he me md mw] HJ S. split.
      * unfold fillTable. cbn [Z.eqb Pos.eqb]. rewrite (fillMatrix_ok fmt rd) by (unfold iso_shape in S; cbn in S; first [apply LX | lia | tauto]). reflexivity.
      * unfold iso_shape in *. cbn [put_hEgh wd_msolar wd_mhdbt wd_mhEgh wd_mEgh wd_mdbt wd_mwind] in *. rewrite upd_length.
        intuition; apply Forall_upd; try assumption; rewrite map_length; apply LX.
    + exact SH.
  - unfold iso_shape in *. cbn [put_hEgh wd_msolar wd_mhdbt wd_mhEgh wd_mEgh wd_mdbt wd_mwind] in *. rewrite map_length, seq_length.
    intuition; apply Forall_forall; intros r I; apply in_map_iff in I; destruct I as (j&<-&_); rewrite map_length; apply LX.
Qed.

Lemma read_solar : forall (x : nat -> list T) st i w, (forall j, length (x j) = 8) -> iso_shape w ->
  ofold (isoLine rd) (tx "solar" :: map (fun j => row_line fmt j (x j)) (seq 0 12)) (st, i, w) = Ok (1%Z, 12, put_solar (map (fun j => map got (x j)) (seq 0 12)) w) /\
  iso_shape (put_solar (map (fun j => map got (x j)) (seq 0 12)) w).
Proof.
  intros x st i w LX SH. split.
  - rewrite (table_read fmt rd W 1 (tx "solar") x (fun j w => put_solar (upd (wd_msolar w) j (map got (x j))) w)).
    + rewrite put_solar_fold, upd_all; [reflexivity|]. apply SH.
    + apply header_name; [reflexivity|discriminate].
    + reflexivity.
    + intros j E. specialize (LX j). rewrite E in LX. discriminate.
    + intros j [so hd he me md mw] HJ S. split.
      * unfold fillTable. cbn [Z.eqb Pos.eqb]. rewrite (fillMatrix_ok fmt rd) by (unfold iso_shape in S; cbn in S; first [apply LX | lia | tauto]). reflexivity.
      * unfold iso_shape in *. cbn [put_solar wd_msolar wd_mhdbt wd_mhEgh wd_mEgh wd_mdbt wd_mwind] in *. rewrite upd_length.
        intuition; apply Forall_upd; try assumption; rewrite map_length; apply LX.
    + exact SH.
  - unfold iso_shape in *. cbn [put_solar wd_msolar wd_mhdbt wd_mhEgh wd_mEgh wd_mdbt wd_mwind] in *. rewrite map_length, seq_length.
    intuition; apply Forall_forall; intros r I; apply in_map_iff in I; destruct I as (j&<-&_); rewrite map_length; apply LX.
Qed.

(** ** The whole text *)
Lemma seq_nth_map : forall A B (f : A -> B) (l : list A) d n, length l = n -> map (fun j => f (nth j l d)) (seq 0 n) = map f l.
Proof.
  intros A B f l d n <-. rewrite <- (map_map (fun j => nth j l d) f). f_equal.
  induction l as [|x l IH]; [reflexivity|]. cbn [length seq map nth]. f_equal. rewrite <- seq_shift, map_map. exact IH.
Qed.
Lemma scalarRow_ok : forall (v : list T) i, length v = 12 -> i < 12 -> scalarRow v i = Ok [nth i v (zn 0)].
Proof. intros v i L H. unfold scalarRow. rewrite (vget_nth _ v i (zn 0)) by lia. reflexivity. Qed.
Lemma matrixRow_ok : forall n (m : list (list T)) i, length m = 12 -> Forall (fun r => length r = n) m -> i < 12 ->
  matrixRow n m i = Ok (nth i m (repeat (zn 0) n)).
Proof.
  intros n m i L F H. unfold matrixRow. rewrite (vget_nth _ m i (repeat (zn 0) n)) by lia. cbn [obind].
  assert (LR : length (nth i m (repeat (zn 0) n)) = n) by (rewrite Forall_forall in F; apply F, nth_In; lia).
  set (r := nth i m _) in *. rewrite (omap_map _ _ _ (fun j => nth j r (zn 0))).
  - f_equal. rewrite (seq_nth_map T T (fun x => x) r (zn 0) n LR). apply map_id.
  - intros j I. apply in_seq in I. apply vget_nth. lia.
Qed.
Lemma row_any : forall n (m : list (list T)) i, Forall (fun r => length r = n) m -> length (nth i m (repeat (zn 0) n)) = n.
Proof.
  intros n m i F. destruct (Nat.lt_ge_cases i (length m)) as [H|H].
  - rewrite Forall_forall in F. apply F, nth_In. exact H.
  - rewrite nth_overflow by exact H. apply repeat_length.
Qed.
Lemma ofold_ended : forall A B (f : B -> A -> outcome B) l1 l2 s, ofold f (l1 ++ l2) s = (do x <- ofold f l1 s; ofold f l2 x).
Proof. intros. apply ofold_app. Qed.

Definition iso_result (a : averages T) : weather T :=
  mkWd (map (map got) (av_msol a)) (map (map got) (av_hdbt a)) (map (map got) (av_hegh a)) (map got (av_megh a)) (map got (av_mdbt a)) (map got (av_mwind a)).
Lemma blank_shape : iso_shape (blankWeather : weather T).
Proof. unfold iso_shape, blankWeather. cbn [wd_msolar wd_mhdbt wd_mhEgh wd_mEgh wd_mdbt wd_mwind]. rewrite !repeat_length. repeat split; repeat constructor. Qed.
Lemma round_trip : forall a, shaped a -> exists content, isoText fmt a = Ok content /\ readIso rd content = Ok (iso_result a).
Proof.
  intros a SH. unfold shaped in SH.
  set (l1 := tx "mdbt" :: map (fun j => row_line fmt j [nth j (av_mdbt a) (zn 0)]) (seq 0 12)).
  set (l2 := tx "mwind" :: map (fun j => row_line fmt j [nth j (av_mwind a) (zn 0)]) (seq 0 12)).
  set (l3 := tx "mEgh" :: map (fun j => row_line fmt j [nth j (av_megh a) (zn 0)]) (seq 0 12)).
  set (l4 := tx "hdbt" :: map (fun j => row_line fmt j (nth j (av_hdbt a) (repeat (zn 0) 24))) (seq 0 12)).
  set (l5 := tx "hEgh" :: map (fun j => row_line fmt j (nth j (av_hegh a) (repeat (zn 0) 24))) (seq 0 12)).
  set (l6 := tx "solar" :: map (fun j => row_line fmt j (nth j (av_msol a) (repeat (zn 0) 8))) (seq 0 12)).
  exists (ended (l1 ++ l2 ++ l3 ++ l4 ++ l5 ++ l6)). split.
  - unfold isoText.
    rewrite (isoTable_lines fmt (tx "mdbt") _ (fun j => [nth j (av_mdbt a) (zn 0)])) by (intros; apply scalarRow_ok; [tauto|assumption]). cbn [obind].
    rewrite (isoTable_lines fmt (tx "mwind") _ (fun j => [nth j (av_mwind a) (zn 0)])) by (intros; apply scalarRow_ok; [tauto|assumption]). cbn [obind].
    rewrite (isoTable_lines fmt (tx "mEgh") _ (fun j => [nth j (av_megh a) (zn 0)])) by (intros; apply scalarRow_ok; [tauto|assumption]). cbn [obind].
    rewrite (isoTable_lines fmt (tx "hdbt") _ (fun j => nth j (av_hdbt a) (repeat (zn 0) 24))) by (intros; apply matrixRow_ok; [tauto|tauto|assumption]). cbn [obind].
    rewrite (isoTable_lines fmt (tx "hEgh") _ (fun j => nth j (av_hegh a) (repeat (zn 0) 24))) by (intros; apply matrixRow_ok; [tauto|tauto|assumption]). cbn [obind].
    rewrite (isoTable_lines fmt (tx "solar") _ (fun j => nth j (av_msol a) (repeat (zn 0) 8))) by (intros; apply matrixRow_ok; [tauto|tauto|assumption]). cbn [obind].
    rewrite !ended_app. reflexivity.
  - unfold readIso. rewrite goodlines_ended.
    + rewrite <- !app_assoc. rewrite !ofold_ended.
      destruct (read_mdbt (fun j => nth j (av_mdbt a) (zn 0)) 0%Z 0 blankWeather blank_shape) as [E1 S1]. fold l1 in E1. rewrite E1. cbn [obind]. rewrite !ofold_ended.
      destruct (read_mwind (fun j => nth j (av_mwind a) (zn 0)) 5%Z 12 _ S1) as [E2 S2]. fold l2 in E2. rewrite E2. cbn [obind]. rewrite !ofold_ended.
      destruct (read_mEgh (fun j => nth j (av_megh a) (zn 0)) 6%Z 12 _ S2) as [E3 S3]. fold l3 in E3. rewrite E3. cbn [obind]. rewrite !ofold_ended.
      destruct (read_hdbt (fun j => nth j (av_hdbt a) (repeat (zn 0) 24)) 4%Z 12 _ (fun j => row_any 24 (av_hdbt a) j ltac:(tauto)) S3) as [E4 S4]. fold l4 in E4. rewrite E4. cbn [obind]. rewrite !ofold_ended.
      destruct (read_hEgh (fun j => nth j (av_hegh a) (repeat (zn 0) 24)) 2%Z 12 _ (fun j => row_any 24 (av_hegh a) j ltac:(tauto)) S4) as [E5 S5]. fold l5 in E5. rewrite E5. cbn [obind]. rewrite !ofold_ended.
      destruct (read_solar (fun j => nth j (av_msol a) (repeat (zn 0) 8)) 3%Z 12 _ (fun j => row_any 8 (av_msol a) j ltac:(tauto)) S5) as [E6 S6]. fold l6 in E6. rewrite E6. cbn [obind].
      cbn [ofold isoLine stringSplit obind snd]. f_equal. unfold iso_result.
      unfold put_solar, put_hEgh, put_hdbt, put_mEgh, put_mwind, put_mdbt. cbn [wd_msolar wd_mhdbt wd_mhEgh wd_mEgh wd_mdbt wd_mwind].
      rewrite !(seq_nth_map T (option T)) by tauto. rewrite !(seq_nth_map (list T) (list (option T))) by tauto. reflexivity.
    + assert (G : forall (name : text) (v : nat -> list T), header name -> Forall no_newline (name :: map (fun j => row_line fmt j (v j)) (seq 0 12))).
      { intros name v (c&t&_&_&_&NN). constructor; [exact NN|]. apply Forall_forall. intros l I. apply in_map_iff in I. destruct I as (j&<-&J).
        apply in_seq in J. apply row_no_newline; [exact W|lia]. }
      assert (HN : forall n : string, In n ["mdbt"; "mwind"; "mEgh"; "hdbt"; "hEgh"; "solar"]%string -> header (tx n)).
      { intros n I. cbn in I. decompose [or] I; subst; try contradiction; (apply header_name; [reflexivity|discriminate]). }
      repeat (apply Forall_app; split); apply G; apply HN; cbn; tauto.
Qed.
End Tables.
