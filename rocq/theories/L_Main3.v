(** The weather of a run. *)
From Coq Require Import Ascii String ZArith Lia.
From Verif Require Import Base Num Text M_Text M_TimeFrame M_Params M_Properties M_UserModel M_Epw M_Solar M_IsoText M_Weather M_Hourly M_Monthly M_Main
  S_Text S_Epw S_Results S_Solar S_Weather S_History S_Main S_Program L_Text L_IsoText L_IsoText2 L_HourlyShape L_HourlyOut L_Epw L_Epw2 L_Solar L_Solar2 L_Solar3 L_Solar4 L_Solar5 L_Weather L_Weather2 L_Weather3 L_Main L_Main2.
Open Scope nat_scope.
Open Scope list_scope.

Section Weather.
Context {T : Type} {N : Num T}.
Variable show : nat -> T -> text.
Variable rd : reader T.
Hypothesis W : forall d, writes_cells (show d).
Lemma writes_6 : writes_numbers (show 6).
Proof. intros x. destruct (W 6 x) as (A&B&_&D). split; [exact A|]. split; assumption. Qed.
Let got (x : T) : T := rd_atof rd (show 6 x).

Lemma assigned_row (l : list T) : assignedRow (map (fun x => Some (got x)) l) = Ok (map got l).
Proof. unfold assignedRow. induction l as [|x l IH]; [reflexivity|]. cbn [map omap assignedCell obind]. rewrite IH. reflexivity. Qed.
Lemma assigned_rows (m : list (list T)) : omap assignedRow (map (map (fun x => Some (got x))) m) = Ok (map (map got) m).
Proof. induction m as [|r m IH]; [reflexivity|]. cbn [map omap]. rewrite assigned_row. cbn [obind]. rewrite IH. reflexivity. Qed.

Lemma months_ok (e : epw T) : year_table (ep_data e) -> ep_site e <> None ->
  exists w tables, initializeSolar (show 6) rd e = Ok w /\ assignedTables w = Ok tables /\ monthly_input got e tables.
Proof.
  intros Y S. destruct (ep_site e) as [[[lat lon] tz]|] eqn:ES; [clear S|congruence].
  destruct (columns _ Y) as (dbt&dpt&rh&egh&eb&ed&wind&D&_).
  destruct (C43_loaded_l T N (show 6) rd e lat lon tz dbt dpt rh egh eb ed wind writes_6 ES D Y) as (frame&s0&s&w&E1&E2&E3&E4&M1&M2&M3&M4&M5&M6).
  destruct (initializeSolar_ok (show 6) rd writes_6 e lat lon tz ES Y) as (frame'&s0'&s'&F1&F2&F3&F4).
  assert (frame' = frame) as -> by congruence. assert (s0' = s0) as -> by congruence. assert (s' = s) as -> by congruence.
  assert (WM : wd_msolar w = map (map (fun x => Some (got x))) (av_msol (so_avg s))) by (assert (w = iso_result (show 6) rd (so_avg s)) as -> by congruence; reflexivity).
  exists w, (mkMw (map (map got) (av_msol (so_avg s))) (map (map got) (hourly_means dbt)) (map (map got) (hourly_means egh)) (map got (monthly_means egh)) (map got (monthly_means dbt)) (map got (monthly_means wind))).
  split; [exact E4|]. split.
  - unfold assignedTables. rewrite WM, M1, M2, M3, M4, M5. rewrite !assigned_rows. cbn [obind]. rewrite !assigned_row. reflexivity.
  - exists dbt, dpt, rh, egh, eb, ed, wind, frame, s0, s. split; [exact D|]. split; [exact E1|]. split; [exact E2|]. split; [exact E3|]. cbn [mw_msolar mw_mdbt mw_mwind mw_mEgh mw_mhdbt mw_mhEgh]. do 5 (split; [reflexivity|]).
    destruct (history_ok frame (timeFrame_good frame E1) [ep_data e] s0 s (Forall_cons _ Y (Forall_nil _)) (newSolar_shape _ _ _ E2)) as [SH _].
    { cbn [ofold]. rewrite E3. reflexivity. }
    destruct SH as (_&_&SH). unfold shaped in SH.
    split; [rewrite map_length; apply SH|]. split.
    + intros r I. apply in_map_iff in I. destruct I as (x&<-&I). rewrite map_length. revert x I. apply Forall_forall. apply SH.
    + intros k j K J. specialize (M6 k j K J). rewrite WM in M6. unfold cell in *. rewrite nth_error_map in *. destruct (nth_error (av_msol (so_avg s)) k) as [r|]; cbn [option_map] in *.
      * rewrite nth_error_map in *. destruct (nth_error r j) as [x|]; cbn [option_map] in *;
          (destruct (nth_error (monthly_means (surface_series j (so_eglobe s))) k) as [y|]; cbn [option_map] in M6 |- *; [|congruence]; try discriminate M6; assert (Q : forall a b : T, Some (Some a) = Some (Some b) -> Some a = Some b) by congruence; apply Q; exact M6).
      * destruct (nth_error (monthly_means (surface_series j (so_eglobe s))) k); cbn [option_map] in *; [discriminate M6|reflexivity].
Qed.

Lemma hours_ok (e : epw T) : year_table (ep_data e) -> ep_site e <> None -> exists ws, hourRows e = Ok ws /\ hourly_input e ws.
Proof.
  intros Y S. destruct (ep_site e) as [[[lat lon] tz]|] eqn:ES; [clear S|congruence].
  destruct (columns _ Y) as (dbt&dpt&rh&egh&eb&ed&wind&D&FC).
  destruct L_Calendar.timeFrame_spec as (frame&TF&_).
  destruct (newSolar_site e PI_ lat lon tz ES) as [s0 N0].
  pose proof (calculate_ok frame s0 dbt dpt rh egh eb ed wind (timeFrame_good frame TF) (newSolar_shape _ _ _ N0) FC) as C.
  set (s := calculated s0 dbt dpt rh egh eb ed wind) in *.
  assert (SH : solar_shape s) by apply calculated_shape. destruct SH as (LG&FG&_). clearbody s.
  rewrite Forall_forall in FC, FG.
  assert (LE : length egh = slices) by (apply FC; cbn; tauto). assert (LW : length wind = slices) by (apply FC; cbn; tauto). assert (LD : length dbt = slices) by (apply FC; cbn; tauto).
  assert (NE : forall (A : Type) (l : list A) i, length l = slices -> i < slices -> exists x, nth_error l i = Some x).
  { intros A l i L I. destruct (nth_error l i) as [x|] eqn:X; [exists x; reflexivity|apply nth_error_None in X; lia]. }
  destruct (omap_all (fun i => do r <- vget (so_eglobe s) i; do g <- vget egh i; Ok (r ++ [g])) (seq 0 (length (so_eglobe s)))) as [rad RAD].
  { intros i I. apply in_seq in I. rewrite LG in I. destruct (NE _ (so_eglobe s) i LG ltac:(lia)) as [r R]. destruct (NE _ egh i LE ltac:(lia)) as [g G]. unfold vget. rewrite R. cbn [obind]. rewrite G. eexists. reflexivity. }
  destruct (omap_inv _ _ _ RAD) as [LR IR]. rewrite seq_length, LG in LR.
  destruct (omap_all (fun i => do w <- vget wind i; do t <- vget dbt i; do r <- vget rad i; Ok (mkWeather w t r)) (seq 0 slices)) as [ws WS].
  { intros i I. apply in_seq in I. destruct (NE _ wind i LW ltac:(lia)) as [w X1]. destruct (NE _ dbt i LD ltac:(lia)) as [t X2]. destruct (NE _ rad i LR ltac:(lia)) as [r X3].
    unfold vget. rewrite X1. cbn [obind]. rewrite X2. cbn [obind]. rewrite X3. eexists. reflexivity. }
  exists ws. split.
  - unfold hourRows. rewrite TF. cbn [obind]. rewrite D. change (vget [dbt; dpt; rh; egh; eb; ed; wind] WSPD) with (Ok wind). change (vget [dbt; dpt; rh; egh; eb; ed; wind] DBT) with (Ok dbt).
    change (vget [dbt; dpt; rh; egh; eb; ed; wind] EGH) with (Ok egh). cbn [obind]. rewrite N0. cbn [obind]. rewrite C. cbn [obind]. rewrite RAD. cbn [obind]. exact WS.
  - exists frame, s0, s. split; [exact TF|]. split; [exact N0|]. split; [rewrite D; exact C|]. destruct (omap_inv _ _ _ WS) as [LS _]. rewrite seq_length in LS.
    split; [rewrite LS; apply slices_Z|]. intros i w H. destruct (nth_error_omap _ _ _ WS i w H) as (j&J&E). apply nth_error_seq in J. destruct J as [-> I].
    apply obind_ok in E as (x1 & X1 & E). apply obind_ok in E as (x2 & X2 & E). apply obind_ok in E as (x3 & X3 & E). assert (w = mkWeather x1 x2 x3) as -> by congruence. cbn [we_wind we_temp we_sol].
    assert (VG : forall (A : Type) (l : list A) k x, vget l k = Ok x -> nth_error l k = Some x) by (intros A l k x V; unfold vget in V; destruct (nth_error l k); [congruence|discriminate]).
    apply VG in X1, X2, X3. rewrite D. split; [exact X1|]. split; [exact X2|].
    destruct (nth_error_omap _ _ _ RAD i x3 X3) as (j&J&E3). apply nth_error_seq in J. destruct J as [-> _]. apply obind_ok in E3 as (r & R & E3). apply obind_ok in E3 as (g & G & E3). apply VG in R, G.
    exists r, g. split; [exact R|]. split; [apply FG; eapply nth_error_In; exact R|]. split; [exact G|congruence].
Qed.
End Weather.
