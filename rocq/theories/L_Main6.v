(** The program as a whole. *)
From Coq Require Import Ascii String ZArith Lia Bool DecimalString.
From Verif Require Import Base Num Text M_Text M_TimeFrame M_Params M_Properties M_UserModel M_Epw M_Solar M_IsoText M_Weather M_Hourly M_Monthly M_Main
  S_Text S_Epw S_Results S_Solar S_Weather S_History S_Main S_Program S_Monthly L_Text L_IsoText L_HourlyShape L_HourlyOut L_Monthly3 L_Epw L_Epw2 L_Weather2 L_Main L_Main2 L_Main3 L_Main4 L_Main5.
Open Scope nat_scope.
Open Scope list_scope.

(** ** Texts determine what they say *)
Lemma split_unique (sep : ascii) (a b x y : text) : ~ In sep a -> ~ In sep b -> a ++ sep :: x = b ++ sep :: y -> a = b /\ x = y.
Proof.
  revert b. induction a as [|c a IH]; intros [|d b] A B H; cbn in *.
  - split; congruence.
  - injection H as H _. exfalso. apply B. left. congruence.
  - injection H as H _. exfalso. apply A. left. congruence.
  - injection H as -> H. destruct (IH b) as [-> ->]; tauto.
Qed.
Lemma joined_unique sep fs gs : Forall (fun f => ~ In sep f) fs -> Forall (fun f => ~ In sep f) gs -> fs <> [] -> gs <> [] -> joined sep fs = joined sep gs -> fs = gs.
Proof.
  revert gs. induction fs as [|f fs IH]; intros gs F G NF NG H; [contradiction|]. destruct gs as [|g gs]; [contradiction|].
  inversion_clear F as [|? ? F1 F2]. inversion_clear G as [|? ? G1 G2].
  destruct fs as [|f' fs], gs as [|g' gs].
  - cbn in H. subst. reflexivity.
  - exfalso. cbn [joined] in H. apply F1. rewrite H. apply in_or_app. right. left. reflexivity.
  - exfalso. cbn [joined] in H. apply G1. rewrite <- H. apply in_or_app. right. left. reflexivity.
  - change (f ++ sep :: joined sep (f' :: fs) = g ++ sep :: joined sep (g' :: gs)) in H. destruct (split_unique sep f g _ _ F1 G1 H) as [-> E].
    f_equal. apply IH; try assumption; discriminate.
Qed.
Lemma fields_unique line fs gs : has_fields line fs -> has_fields line gs -> fs = gs.
Proof. intros (N1&F1&E1) (N2&F2&E2). apply (joined_unique ","); try assumption. congruence. Qed.
Lemma ended_unique ls ms : Forall no_newline ls -> Forall no_newline ms -> ended ls = ended ms -> ls = ms.
Proof.
  revert ms. induction ls as [|l ls IH]; intros [|m ms] F G H; [reflexivity|..].
  - exfalso. rewrite ended_cons in H. destruct m; discriminate H.
  - exfalso. rewrite ended_cons in H. destruct l; discriminate H.
  - inversion_clear F as [|? ? F1 F2]. inversion_clear G as [|? ? G1 G2]. rewrite !ended_cons in H. destruct (split_unique newline l m _ _ F1 G1 H) as [-> E]. f_equal. apply IH; assumption.
Qed.
Lemma lines_unique out ls ms : full_lines out ls -> full_lines out ms -> ls = ms.
Proof. intros [F ->] [G E]. apply ended_unique; assumption. Qed.
Lemma numeral_unique n m f : numeral n f -> numeral m f -> n = m.
Proof. intros (d&D&<-) (d'&D'&<-). assert (d' = d) as -> by congruence. reflexivity. Qed.

Section Program.
Context {T : Type} {N : Num T}.
Variable show : nat -> T -> text.
Variable rd : reader T.
Variable files : text -> option text.
Hypothesis W : forall d, writes_cells (show d).
Let got (x : T) : T := rd_atof rd (show 6 x).

Lemma Forall2_omap {A B} (f : A -> outcome B) (P : A -> B -> Prop) l out : (forall a b, f a = Ok b -> P a b) -> omap f l = Ok out -> Forall2 P l out.
Proof.
  intros H. revert out. induction l as [|a l IH]; intros out E; cbn [omap] in E.
  - assert (out = []) as -> by congruence. constructor.
  - apply obind_ok in E as (b & B1 & E). apply obind_ok in E as (bs & B2 & E). assert (out = b :: bs) as -> by congruence. constructor; [apply H; exact B1|apply IH; exact B2].
Qed.
Lemma omap_defined {A B} (f : A -> outcome B) l : (forall a, In a l -> exists b, f a = Ok b) -> exists out, omap f l = Ok out.
Proof.
  induction l as [|a l IH]; intros H; cbn [omap]; [eexists; reflexivity|]. destruct (H a (or_introl eq_refl)) as [b E]. rewrite E. cbn [obind].
  destruct IH as [bs E2]; [intros; apply H; right; assumption|]. rewrite E2. eexists. reflexivity.
Qed.
Lemma serves_impl (M M' : list (list T) -> Prop) (H H' : bool -> list (list T) -> Prop) d r out : (forall x, M x -> M' x) -> (forall b x, H b x -> H' b x) ->
  serves show d M H r out -> serves show d M' H' r out.
Proof.
  intros IM IH. destruct r as [md| | |[|]]; cbn [serves].
  - intros (mo&ho&A&B&C). exists mo, ho. auto.
  - auto.
  - intros (rows&A&B). exists rows. auto.
  - intros (rows&A&B). exists rows. auto.
  - intros (rows&A&B). exists rows. auto.
Qed.
Definition monthly_is (b : building_model T) tables rows : Prop := simulateMonthly (bm_params b) tables = Ok rows.
Definition hourly_is (b : building_model T) ws agg rows : Prop := exists r, simulate (bm_params b) ws no_ratios agg = Ok (rows, r).

Lemma C69_l b0 ism defaults b e : building_of rd files b0 ism defaults b -> weather_of rd files ism b e ->
  exists tables ws, monthly_input got e tables /\ hourly_input e ws /\ forall compare monthly byMonth byHour,
    (forall code out, main show rd files b0 (mkOptions (Some ism) defaults compare monthly byMonth byHour) = Ok (code, out) ->
       code = 0%Z /\ exists outs, out = concat outs /\
         Forall2 (serves show (if monthly then 10 else 6) (fun rows => simulateMonthly (bm_params b) tables = Ok rows)
                    (fun agg rows => exists r, simulate (bm_params b) ws no_ratios agg = Ok (rows, r)))
           (requests compare monthly byMonth byHour) outs) /\
    ((forall r, In r (requests compare monthly byMonth byHour) ->
        (needs_monthly r = true -> exists rows, simulateMonthly (bm_params b) tables = Ok rows) /\
        (forall agg, needs_hourly r agg = true -> exists x, simulate (bm_params b) ws no_ratios agg = Ok x)) ->
     exists out, main show rd files b0 (mkOptions (Some ism) defaults compare monthly byMonth byHour) = Ok (0%Z, out)).
Proof.
  intros B We. destruct (opened_ok show rd files W b0 ism defaults b e B We) as (u&tables&ws&O&MI&HI&RM&RH). exists tables, ws. split; [exact MI|]. split; [exact HI|].
  intros compare monthly byMonth byHour. set (o := mkOptions (Some ism) defaults compare monthly byMonth byHour). split.
  - intros code out H. apply (main_opened show rd files b0 o ism) in H; [|reflexivity]. destruct H as (u'&O'&R&->). split; [reflexivity|].
    assert (u' = u) as -> by (cbn [op_defaults o] in O'; congruence). rewrite (runs_parts show W) in R. apply obind_ok in R as (outs & P & R).
    exists outs. split; [congruence|]. change (requests compare monthly byMonth byHour) with (asked o). change (if monthly then 10 else 6) with (hourlyDigits o).
    revert P. apply Forall2_omap. intros r t E. apply (part_serves show W) in E. revert E. apply serves_impl.
    + intros rows Q. unfold is_monthly in Q. congruence.
    + intros agg rows Q. unfold is_hourly in Q. rewrite RH in Q. destruct (simulate (bm_params b) ws no_ratios agg) as [[x r0]| |]; try discriminate Q. exists r0. cbn in Q. congruence.
  - intros D. destruct (omap_defined (part show u (hourlyDigits o)) (asked o)) as [outs E].
    { intros r I. apply (part_defined show W); intros; destruct (D r I) as [D1 D2].
      - rewrite RM. auto.
      - rewrite RH. destruct (D2 _ H) as [x X]. rewrite X. eexists. reflexivity. }
    exists (concat outs). apply (main_opened show rd files b0 o ism); [reflexivity|]. exists u. split; [exact O|]. split; [|reflexivity]. rewrite (runs_parts show W), E. reflexivity.
Qed.

(** A report needs both files. *)
Lemma asked_simulates o : asked o <> [UnknownCompare] -> exists r, In r (asked o) /\ r <> UnknownCompare.
Proof.
  unfold asked, requests. intros H. destruct (op_compare o) as [k|], (op_monthly o), (op_hourlyByMonth o), (op_hourlyByHour o); cbn in *;
    try (eexists; split; [right; left; reflexivity|discriminate]); try (eexists; split; [left; reflexivity|congruence]).
Qed.
Lemma C69_files_l b0 ism o code out : op_ism o = Some ism -> main show rd files b0 o = Ok (code, out) -> asked o <> [UnknownCompare] ->
  exists b e, building_of rd files b0 ism (op_defaults o) b /\ weather_of rd files ism b e.
Proof.
  intros E H A. apply (main_opened show rd files b0 o ism) in H; [|exact E]. destruct H as (u&O&R&_). rewrite (runs_parts show W) in R. apply obind_ok in R as (outs & P & _).
  destruct (asked_simulates o A) as (r&I&Nr). apply (opened_files show rd files b0 ism (op_defaults o) u O). apply run_valid.
  assert (X : exists t, part show u (hourlyDigits o) r = Ok t).
  { clear - P I. revert outs P. induction (asked o) as [|a l IH]; intros outs P; [destruct I|]. cbn [omap] in P. apply obind_ok in P as (t & T1 & P). apply obind_ok in P as (ts & T2 & _).
    destruct I as [->|I]; [exists t; exact T1|exact (IH I ts T2)]. }
  destruct X as [t X]. destruct r as [md| | |bm]; cbn [part] in X; [|contradiction|..].
  - apply obind_ok in X as (rows & Q & _). right. exists true, rows. exact Q.
  - apply obind_ok in X as (rows & Q & _). left. exists rows. exact Q.
  - apply obind_ok in X as (rows & Q & _). right. exists bm, rows. exact Q.
Qed.
End Program.
