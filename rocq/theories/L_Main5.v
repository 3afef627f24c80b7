(** The requests of a command line, served one after the other. *)
From Coq Require Import Ascii String ZArith Lia Bool.
From Verif Require Import Base Num Text M_Text M_TimeFrame M_Params M_Properties M_UserModel M_Epw M_Solar M_IsoText M_Weather M_Hourly M_Monthly M_Main
  S_Text S_Epw S_Results S_Solar S_Weather S_History S_Main S_Program L_Text L_IsoText L_HourlyShape L_Epw L_Epw2 L_Weather2 L_Main L_Main2 L_Main3 L_Main4.
Open Scope nat_scope.
Open Scope list_scope.

Section Program.
Context {T : Type} {N : Num T}.
Variable show : nat -> T -> text.
Variable rd : reader T.
Variable files : text -> option text.
Hypothesis W : forall d, writes_cells (show d).
Let got (x : T) : T := rd_atof rd (show 6 x).

Definition message : text := tx "No output type given for compare. Please use 'md' or 'csv'.".
Definition part (u : user T) (dh : nat) (r : request) : outcome text :=
  match r with
  | Compare md => do ho <- runHourly u true; do mo <- runMonthly u; do t <- omap (compareTable show md 6 mo ho) (seq 0 13); Ok (concat t)
  | UnknownCompare => Ok (message ++ [newline])
  | MonthlyTable => do rows <- runMonthly u; Ok (monthlyOut show rows)
  | HourlyTable b => do rows <- runHourly u b; Ok (hourlyOut show b dh rows)
  end.
Definition asked (o : options) : list request := requests (op_compare o) (op_monthly o) (op_hourlyByMonth o) (op_hourlyByHour o).
Definition hourlyDigits (o : options) : nat := if op_monthly o then 10 else 6.
Lemma same_text_eqb a b : text_eqb a b = same_text a b.
Proof. unfold same_text. destruct (list_eq_dec ascii_dec a b) as [E|E]; [apply text_eqb_eq; exact E|]. destruct (text_eqb a b) eqn:Q; [apply text_eqb_eq in Q; contradiction|reflexivity]. Qed.
Lemma compareOption_part u k d : d = 6 -> compareOption show u (Some k) d = do t <- part u 6 (compare_request k); Ok (t, d).
Proof.
  intros ->. unfold compareOption, compare_request. rewrite !same_text_eqb. destruct (same_text k (tx "md")); [|destruct (same_text k (tx "csv"))]; cbn [part]; [| |reflexivity];
  unfold M_Main.compare; destruct (runHourly u true); cbn [obind]; try reflexivity; destruct (runMonthly u); cbn [obind]; try reflexivity;
  match goal with |- context [omap ?f ?l] => destruct (omap f l) end; reflexivity.
Qed.
Lemma part_compare u k d d' : part u d (compare_request k) = part u d' (compare_request k).
Proof. unfold compare_request. destruct (same_text k (tx "md")); [|destruct (same_text k (tx "csv"))]; reflexivity. Qed.
Lemma monthly_part u d dh : runMonthlySimulation show u d = do t <- part u dh MonthlyTable; Ok (t, 10).
Proof. rewrite (monthlyReport show W). cbn [part]. destruct (runMonthly u); reflexivity. Qed.
Lemma hourly_part u b d : runHourlySimulation show u b d = do t <- part u d (HourlyTable b); Ok (t, d).
Proof. rewrite (hourlyReport show W). cbn [part]. destruct (runHourly u b); reflexivity. Qed.

Definition serving (u : user T) (l : list (nat * request)) : outcome text := do outs <- omap (fun x => part u (fst x) (snd x)) l; Ok (concat outs).
Lemma omap_app {A B} (f : A -> outcome B) l l' : omap f (l ++ l') = do x <- omap f l; do y <- omap f l'; Ok (x ++ y).
Proof.
  induction l as [|a l IH]; cbn [omap app obind].
  - destruct (omap f l'); reflexivity.
  - destruct (f a); cbn [obind]; try reflexivity. rewrite IH. destruct (omap f l); cbn [obind]; try reflexivity. destruct (omap f l'); reflexivity.
Qed.
Lemma andThen_part u l d (on : bool) r d' p : (on = true -> p d = (do t <- part u d r; Ok (t, d'))) ->
  andThen (do t <- serving u l; Ok (t, d)) on p = (do t <- serving u (l ++ if on then [(d, r)] else []); Ok (t, if on then d' else d)).
Proof.
  intros P. unfold andThen, serving. destruct on; [|rewrite app_nil_r; destruct (omap _ l); reflexivity].
  rewrite omap_app. destruct (omap (fun x => part u (fst x) (snd x)) l) as [outs| |]; cbn [obind]; try reflexivity. rewrite (P eq_refl). cbn [omap fst snd].
  destruct (part u d r); cbn [obind]; try reflexivity. rewrite concat_app. cbn [concat]. rewrite app_nil_r. reflexivity.
Qed.
Lemma runs_parts u o : runs show u o = do outs <- omap (part u (hourlyDigits o)) (asked o); Ok (concat outs).
Proof.
  assert (Z0 : forall d : nat, Ok ([] : text, d) = (do t <- serving u []; Ok (t, d))) by reflexivity.
  unfold runs. cbv zeta. change (@nil ascii, 6) with ([] : text, 6). rewrite Z0.
  rewrite (andThen_part u [] 6 (is_some (op_compare o)) (match op_compare o with Some k => compare_request k | None => UnknownCompare end) 6).
  2:{ destruct (op_compare o) as [k|]; [intros _|discriminate]. rewrite compareOption_part by reflexivity. reflexivity. }
  replace (if is_some (op_compare o) then 6 else 6) with 6 by (destruct (op_compare o); reflexivity).
  rewrite (andThen_part u _ 6 (op_monthly o) MonthlyTable 10) by (intros _; apply monthly_part). fold (hourlyDigits o).
  rewrite (andThen_part u _ (hourlyDigits o) (op_hourlyByMonth o) (HourlyTable true) (hourlyDigits o)) by (intros _; apply hourly_part).
  replace (if op_hourlyByMonth o then hourlyDigits o else hourlyDigits o) with (hourlyDigits o) by (destruct (op_hourlyByMonth o); reflexivity).
  rewrite (andThen_part u _ (hourlyDigits o) (op_hourlyByHour o) (HourlyTable false) (hourlyDigits o)) by (intros _; apply hourly_part).
  replace (if op_hourlyByHour o then hourlyDigits o else hourlyDigits o) with (hourlyDigits o) by (destruct (op_hourlyByHour o); reflexivity).
  rewrite (andThen_part u _ (hourlyDigits o) _ MonthlyTable 10) by (intros _; apply monthly_part).
  transitivity (serving u (map (fun r => (hourlyDigits o, r)) (asked o))).
  - match goal with |- context [serving u ?l] => transitivity (serving u l) end; [match goal with |- context [serving u ?l] => destruct (serving u l) end; reflexivity|].
    unfold serving. f_equal. unfold asked, requests. destruct (op_compare o) as [k|]; destruct (op_monthly o), (op_hourlyByMonth o), (op_hourlyByHour o); cbn [is_some orb negb app map];
      cbn [omap fst snd]; rewrite ?(part_compare u k 6 (hourlyDigits o)); reflexivity.
  - unfold serving. f_equal. induction (asked o) as [|r l IH]; [reflexivity|]. cbn [map omap fst snd]. rewrite IH. reflexivity.
Qed.

(** Each part serves its request. *)
Definition is_monthly (u : user T) (rows : list (list T)) : Prop := runMonthly u = Ok rows.
Definition is_hourly (u : user T) (agg : bool) (rows : list (list T)) : Prop := runHourly u agg = Ok rows.
Lemma part_serves u dh r out : part u dh r = Ok out -> serves show dh (is_monthly u) (is_hourly u) r out.
Proof.
  destruct r as [md| | |b]; cbn [part serves]; intros H.
  - apply obind_ok in H as (ho & Ho & H). apply obind_ok in H as (mo & Mo & H). apply obind_ok in H as (t & C & H). exists mo, ho. split; [exact Mo|]. split; [exact Ho|].
    destruct (compareTables_ok show W md 6 mo ho (runMonthly_shape u mo Mo) (runHourly_shape u true ho Ho)) as (out'&E&TX).
    assert (out' = t) as -> by congruence. assert (out = concat t) as -> by congruence. exact TX.
  - assert (out = message ++ [newline]) as -> by congruence. change (message ++ [newline]) with (ended [message]). apply ended_lines.
    apply Forall_cons; [|apply Forall_nil]. intros I. cbv in I. decompose [or] I; try discriminate; contradiction.
  - apply obind_ok in H as (rows & E & H). exists rows. split; [exact E|]. split; [exact (proj1 (runMonthly_shape u rows E))|].
    assert (out = monthlyOut show rows) as -> by congruence. apply monthlyOut_text. exact W.
  - apply obind_ok in H as (rows & E & H). assert (out = hourlyOut show b dh rows) as -> by congruence.
    pose proof (runHourly_shape u b rows E) as [L _]. pose proof (hourlyOut_text show W b dh rows) as TX. destruct b; exists rows; (split; [exact E|]); (split; [|exact TX]); [exact L|].
    rewrite L. reflexivity.
Qed.
Lemma part_defined u dh r : (needs_monthly r = true -> exists rows, runMonthly u = Ok rows) -> (forall b, needs_hourly r b = true -> exists rows, runHourly u b = Ok rows) ->
  exists out, part u dh r = Ok out.
Proof.
  destruct r as [md| | |b]; cbn [part needs_monthly needs_hourly]; intros HM HH.
  - destruct (HM eq_refl) as [mo Mo]. destruct (HH true eq_refl) as [ho Ho]. rewrite Ho, Mo. cbn [obind].
    destruct (compareTables_ok show W md 6 mo ho (runMonthly_shape u mo Mo) (runHourly_shape u true ho Ho)) as (out'&E&_). rewrite E. eexists. reflexivity.
  - eexists. reflexivity.
  - destruct (HM eq_refl) as [mo Mo]. rewrite Mo. eexists. reflexivity.
  - destruct (HH b) as [ho Ho]; [destruct b; reflexivity|]. rewrite Ho. eexists. reflexivity.
Qed.
End Program.
