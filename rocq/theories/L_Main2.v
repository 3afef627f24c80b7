(** The whole program: from files to reports. *)
From Coq Require Import Ascii String ZArith Lia Reals.
From Verif Require Import Base Num Text M_Text M_TimeFrame M_Params M_Properties M_UserModel M_Epw M_Solar M_IsoText M_Weather M_Hourly M_Monthly M_Main
  S_Text S_Epw S_Results S_Solar S_Weather S_History S_Main L_Text L_IsoText L_HourlyShape L_HourlyOut L_Monthly6 L_Epw L_Weather2 L_Weather3 L_Main.
Open Scope nat_scope.
Open Scope list_scope.

Section Program.
Context {T : Type} {N : Num T}.
Variable show : nat -> T -> text.
Variable rd : reader T.
Hypothesis W : forall d, writes_cells (show d).

Lemma runHourly_shape u agg rows : runHourly u agg = Ok rows -> table_shape (if agg then 12 else Z.to_nat 8760) rows.
Proof.
  unfold runHourly. intros H. apply obind_ok in H as (m & _ & H). apply obind_ok in H as (ws & _ & H). apply obind_ok in H as ([rs r] & S & H).
  assert (rows = rs) as -> by (cbn in H; congruence). apply simulate_det in S. destruct S as (raw & _ & SH & _). exact SH.
Qed.
Lemma runMonthly_shape u rows : runMonthly u = Ok rows -> table_shape 12 rows.
Proof.
  unfold runMonthly. intros H. apply obind_ok in H as (m & _ & H). apply obind_ok in H as (w & _ & H). apply obind_ok in H as (w' & _ & H). eapply monthly_shape. exact H.
Qed.
Lemma ended_cons a ls : ended (a :: ls) = a ++ newline :: ended ls.
Proof. unfold ended. cbn [map concat]. rewrite <- app_assoc. reflexivity. Qed.
Definition monthlyOut rows := tableOut show (tx "Monthly Results:") (tx "Month") 10 rows.
Definition hourlyOut (agg : bool) d rows :=
  if agg then tableOut show (tx "Hourly results by month:") (tx "month") d rows else tableOut show (tx "Hourly results by hour:") (tx "hour") d rows.
Lemma monthlyReport u d : runMonthlySimulation show u d = do rows <- runMonthly u; Ok (monthlyOut rows, 10).
Proof.
  unfold runMonthlySimulation. destruct (runMonthly u) as [rows| |] eqn:E; cbn [obind]; try reflexivity.
  destruct (runMonthly_shape u rows E) as [L F]. rewrite (tableLines_ok show W 10 rows 12 L F). cbn [obind].
  unfold monthlyOut, tableOut. rewrite !ended_cons. unfold ended. rewrite <- app_assoc. reflexivity.
Qed.
Lemma hourlyReport u agg d : runHourlySimulation show u agg d = do rows <- runHourly u agg; Ok (hourlyOut agg d rows, d).
Proof.
  unfold runHourlySimulation. destruct (runHourly u agg) as [rows| |] eqn:E; cbn [obind]; try reflexivity. cbv zeta.
  destruct (runHourly_shape u agg rows E) as [L F]. rewrite (tableLines_ok show W d rows _ L F). cbn [obind].
  unfold hourlyOut, tableOut. destruct agg; rewrite !ended_cons; unfold ended; rewrite <- app_assoc; reflexivity.
Qed.
Lemma monthlyOut_text rows : table_text (tx "Monthly Results:") (tx "Month") (show 10) rows (monthlyOut rows).
Proof. apply tableOut_text; [exact W|..]; intros I; cbv in I; decompose [or] I; try discriminate; contradiction. Qed.
Lemma hourlyOut_text (agg : bool) d rows : table_text (if agg then tx "Hourly results by month:" else tx "Hourly results by hour:") (if agg then tx "month" else tx "hour") (show d) rows (hourlyOut agg d rows).
Proof. destruct agg; apply tableOut_text; try exact W; intros I; cbv in I; decompose [or] I; try discriminate; contradiction. Qed.

(** What main loads. *)
Definition opened files b (ism : text) (defaults : option text) : user T * outcome unit :=
  match defaults with Some d => load2 (show 6) rd files ism d (newUser b) | None => load (show 6) rd files ism (newUser b) end.
Lemma main_opened files b o ism code out : op_ism o = Some ism -> main show rd files b o = Ok (code, out) <->
  exists u, opened files b ism (op_defaults o) = (u, Ok tt) /\ runs show u o = Ok out /\ code = 0%Z.
Proof.
  intros E. unfold main. rewrite E. cbv zeta. fold (opened files b ism (op_defaults o)). destruct (opened files b ism (op_defaults o)) as [u r]. split.
  - intros H. apply obind_ok in H as ([] & -> & H). apply obind_ok in H as (t & R & H). exists u. split; [reflexivity|].
    assert (F : forall (a c : Z) (x y : text), Ok (a, x) = Ok (c, y) -> x = y /\ c = a) by (intros; split; congruence). destruct (F _ _ _ _ H) as [-> ->]. split; [exact R|reflexivity].
  - intros (u'&Eu&R&->). assert (u' = u) as -> by congruence. assert (r = Ok tt) as -> by congruence. cbn [obind]. rewrite R. reflexivity.
Qed.

(** Single requests. *)
Definition only (i d c : option text) (m hm hh : bool) : options := mkOptions i d c m hm hh.
Lemma runs_monthly u i d : runs show u (mkOptions i d None true false false) = do rows <- runMonthly u; Ok (monthlyOut rows).
Proof. unfold runs. cbn. rewrite monthlyReport. destruct (runMonthly u); reflexivity. Qed.
Lemma runs_none u i d : runs show u (mkOptions i d None false false false) = do rows <- runMonthly u; Ok (monthlyOut rows).
Proof. unfold runs. cbn. rewrite monthlyReport. destruct (runMonthly u); reflexivity. Qed.
Lemma runs_byMonth u i d : runs show u (mkOptions i d None false true false) = do rows <- runHourly u true; Ok (hourlyOut true 6 rows).
Proof. unfold runs. cbn [op_compare op_monthly op_hourlyByMonth op_hourlyByHour is_some andThen obind orb negb]. rewrite hourlyReport. destruct (runHourly u true); reflexivity. Qed.
Lemma runs_byHour u i d : runs show u (mkOptions i d None false false true) = do rows <- runHourly u false; Ok (hourlyOut false 6 rows).
Proof. unfold runs. cbn [op_compare op_monthly op_hourlyByMonth op_hourlyByHour is_some andThen obind orb negb]. rewrite hourlyReport. destruct (runHourly u false); reflexivity. Qed.
End Program.
