(** Lemmas about loading several building files into one object. *)
From Coq Require Import Ascii String Lia.
From Verif Require Import Base Num Text M_Text M_Properties M_Params M_UserModel.
From Verif Require Import S_Text S_Loading S_Access S_Reload L_Text L_UserModel L_Loading L_Loading2 L_Access3.
Open Scope list_scope.

Section Reload.
Context {T : Type} {N : Num T}.
Implicit Types u v a b : building_model T.

Lemma reload_other : forall rd m u a v, loaded rd (getProperty m) (getPropertyAsDoubleVector rd m) u a ->
  exists b, loaded rd (getProperty m) (getPropertyAsDoubleVector rd m) v b.
Proof.
  intros rd m u a v L.
  destruct (ofold_succeeds rd m _ (binding_succeeds rd m u a L) v) as (b&E).
  exists b. apply load_loaded. exact E.
Qed.

Lemma C77_accepts_l : forall rd file u v,
  (exists a, loadBuilding rd file u = Ok a) <-> (exists b, loadBuilding rd file v = Ok b).
Proof.
  intros rd file. assert (H : forall u v, (exists a, loadBuilding rd file u = Ok a) -> exists b, loadBuilding rd file v = Ok b).
  { intros u v (a&E). apply C48_one_file_l in E. destruct E as (m&E&L).
    destruct (reload_other rd m u a v L) as (b&L'). exists b. apply C48_one_file_l. eauto. }
  intros u v. split; apply H.
Qed.

Lemma C77_again_l : forall rd file u a, loadBuilding rd file u = Ok a -> loadBuilding rd file a = Ok a.
Proof.
  intros rd file u a E. apply C48_one_file_l in E. destruct E as (m&E&A1&A2&A3&A4&A5&A6&A7).
  apply C48_one_file_l. exists m. split; [exact E|]. split; [exact A1|]. split; [|split; [|split; [|split; [exact A5|split; [exact A6|exact A7]]]]].
  - intros k p I. specialize (A2 k p I). unfold optional_result in *. destruct (getProperty m (tx k)) as [s|]; [|reflexivity].
    destruct (rd_stod rd s); [exact A2|reflexivity|exact A2].
  - intros k p I. destruct (A3 k p I) as [H|[H|(H1&H2&_)]]; [left; exact H|right; left; exact H|right; right; auto].
  - unfold optional_integer, optional_result in *. destruct (getProperty m _) as [s|]; [|reflexivity].
    destruct (rd_stoi rd s); [exact A4|reflexivity|exact A4].
Qed.

(** A complete file leaves nothing of the old building. *)
Lemma loaded_complete : forall rd m u v a, gives_all rd m ->
  loaded rd (getProperty m) (getPropertyAsDoubleVector rd m) u a ->
  loaded rd (getProperty m) (getPropertyAsDoubleVector rd m) v a.
Proof.
  intros rd m u v a (G1&G2&(z&s0&G3&G4)) (A1&A2&A3&A4&A5&A6&A7).
  split; [exact A1|]. split; [|split; [|split; [|split; [exact A5|split; [exact A6|exact A7]]]]].
  - intros k p I. specialize (A2 k p I). destruct (G1 k p I) as (x&s&E1&E2). unfold optional_result in *. rewrite E1, E2 in *. exact A2.
  - intros k p I. destruct (G2 k p I) as (b&E). unfold gives_flag in E.
    destruct (A3 k p I) as [H|[H|(H1&H2&_)]]; [left; exact H|right; left; exact H|].
    exfalso. destruct b; [exact (H1 E)|exact (H2 E)].
  - unfold optional_integer, optional_result in *. cbn [fst] in G3. rewrite G3, G4 in *. exact A4.
Qed.
Lemma C77_complete_l : forall rd file m u v a, propertiesOf file = Ok m -> gives_all rd m ->
  loadBuilding rd file u = Ok a -> loadBuilding rd file v = Ok a.
Proof.
  intros rd file m u v a P G E. apply C48_one_file_l in E. destruct E as (m'&E&L). rewrite P in E. injection E as <-.
  apply C48_one_file_l. exists m. split; [exact P|]. exact (loaded_complete rd m u v a G L).
Qed.
Lemma C77_complete_two_l : forall rd file defaults m u v a, propertiesOf2 file defaults = Ok m -> gives_all rd m ->
  loadBuilding2 rd file defaults u = Ok a -> loadBuilding2 rd file defaults v = Ok a.
Proof.
  intros rd file d m u v a P G E. apply C48_two_files_l in E. destruct E as (m'&E&L). rewrite P in E. injection E as <-.
  apply C48_two_files_l. exists m. split; [exact P|]. exact (loaded_complete rd m u v a G L).
Qed.

(** Required parameters never depend on the old building. *)
Lemma loaded_required : forall rd m u v a b,
  loaded rd (getProperty m) (getPropertyAsDoubleVector rd m) u a ->
  loaded rd (getProperty m) (getPropertyAsDoubleVector rd m) v b -> same_required a b.
Proof.
  intros rd m u v a b (A1&_&_&_&A5&A6&A7) (B1&_&_&_&B5&B6&B7). split; [|split; [|split]].
  - intros k p I. destruct (A1 k p I) as (s&X1&X2). destruct (B1 k p I) as (t&Y1&Y2). congruence.
  - intros k p words I. destruct (A5 k p words I) as (s&w&c&X1&X2&X3&X4). destruct (B5 k p words I) as (t&w'&c'&Y1&Y2&Y3&Y4).
    rewrite X1 in Y1. injection Y1 as <-. rewrite X4, Y4. f_equal.
    pose proof (same_word_codes s w w' X3 Y3) as H. clear - I X2 Y2 H. cbn in I.
    repeat destruct I as [I|I]; try contradiction; injection I as <- <- <-; cbn in X2, Y2;
      repeat (destruct X2 as [X2|X2]; [injection X2 as <- <-|]); try contradiction;
      repeat (destruct Y2 as [Y2|Y2]; [injection Y2 as <- <-|]); try contradiction; try reflexivity; discriminate H.
  - intros k p I. destruct (A6 k p I) as (xs&X1&X2). destruct (B6 k p I) as (ys&Y1&Y2). rewrite X1 in Y1. injection Y1 as <-.
    exact (directions_unique _ xs _ _ X2 Y2).
  - congruence.
Qed.

Lemma load_all_app : forall rd past f u a, load_all rd (past ++ [f]) u = Ok a ->
  exists v, load_all rd past u = Ok v /\ loadBuilding rd f v = Ok a.
Proof.
  intros rd past. unfold load_all. induction past as [|g past IH]; intros f u a E; cbn [app ofold] in *.
  - destruct (loadBuilding rd f u) eqn:F; cbn in E; try discriminate. exists u. split; [reflexivity|]. rewrite F. exact E.
  - destruct (loadBuilding rd g u) as [v| |] eqn:F; cbn in *; try discriminate. apply IH. exact E.
Qed.

Lemma C77_required_l : forall rd past f u v a b, load_all rd (past ++ [f]) u = Ok a -> loadBuilding rd f v = Ok b ->
  same_required a b.
Proof.
  intros rd past f u v a b E F. destruct (load_all_app rd past f u a E) as (w&_&H).
  apply C48_one_file_l in H. destruct H as (m&E1&L1). apply C48_one_file_l in F. destruct F as (m'&E2&L2).
  rewrite E1 in E2. injection E2 as <-. exact (loaded_required rd m w v a b L1 L2).
Qed.

Lemma C77_after_complete_l : forall rd past f m u v a b, propertiesOf f = Ok m -> gives_all rd m ->
  load_all rd (past ++ [f]) u = Ok a -> loadBuilding rd f v = Ok b -> a = b.
Proof.
  intros rd past f m u v a b P G E F. destruct (load_all_app rd past f u a E) as (w&_&H).
  rewrite (C77_complete_l rd f m w v a P G H) in F. congruence.
Qed.

Lemma C77_history_l : forall rd files ms u a, Forall2 (fun f m => propertiesOf f = Ok m) files ms ->
  load_all rd files u = Ok a ->
  (forall k p, In (k, p) optional_numbers -> value_after (gives_number rd k) (p u) ms (p a)) /\
  (forall k p, In (k, p) optional_flags -> value_after (gives_flag k) (p u) ms (p a)) /\
  (let (k, p) := optional_integer in value_after (gives_integer rd k) (p u) ms (p a)).
Proof.
  intros rd files ms u a F. revert u. induction F as [|f m files ms P F IH]; intros u E.
  - cbn in E. injection E as <-. unfold optional_integer. repeat split; intros; apply after_none; intros ? ? [].
  - unfold load_all in E. cbn [ofold] in E. destruct (loadBuilding rd f u) as [v| |] eqn:L; cbn in E; try discriminate.
    apply C48_one_file_l in L. destruct L as (m'&P'&L). rewrite P in P'. injection P' as <-.
    destruct (IH v E) as (I1&I2&I3). destruct L as (_&A2&A3&A4&_). split; [|split].
    + intros k p I. apply after_cons with (p v); [exact (I1 k p I)|]. specialize (A2 k p I). unfold optional_result in A2. unfold gives_number.
      destruct (getProperty m (tx k)) as [s|] eqn:G; [destruct (rd_stod rd s) as [x| |] eqn:S|].
      * left. exists s. split; [reflexivity|congruence].
      * right. split; [|exact A2]. intros y (s'&Y1&Y2). congruence.
      * destruct A2.
      * right. split; [|exact A2]. intros y (s'&Y1&Y2). congruence.
    + intros k p I. apply after_cons with (p v); [exact (I2 k p I)|]. unfold gives_flag. destruct (A3 k p I) as [(H1&->)|[(H1&->)|(H1&H2&H3)]].
      * left. exact H1.
      * left. exact H1.
      * right. split; [|exact H3]. intros [|]; assumption.
    + unfold optional_integer in *. cbv beta iota in *. eapply after_cons; [exact I3|]. unfold optional_result in A4. unfold gives_integer.
      destruct (getProperty m _) as [s|] eqn:G; [destruct (rd_stoi rd s) as [x| |] eqn:S|].
      * left. exists s. split; [reflexivity|congruence].
      * right. split; [|exact A4]. intros y (s'&Y1&Y2). congruence.
      * destruct A4.
      * right. split; [|exact A4]. intros y (s'&Y1&Y2). congruence.
Qed.
End Reload.

(** The examples. *)
From Coq Require Import Reals Lra.
From Verif Require Import Xr E_Decimal E_SmallOffice E_OfficeFile E_CompleteFile.
Local Open Scope R_scope.

Definition completeb {T} (rd : reader T) (m : props) : bool :=
  forallb (fun e => match getProperty m (tx (fst e)) with Some s => match rd_stod rd s with Value _ => true | _ => false end | None => false end) (@optional_numbers T) &&
  forallb (fun e => match getProperty m (tx (fst e)) with Some s => orb (text_eqb s (tx "true")) (text_eqb s (tx "false")) | None => false end) (@optional_flags T) &&
  match getProperty m (tx "vent_rate_flag") with Some s => match rd_stoi rd s with Value _ => true | _ => false end | None => false end.
Lemma completeb_ok : forall T (rd : reader T) m, completeb rd m = true -> gives_all rd m.
Proof.
  intros T rd m H. unfold completeb in H. apply andb_prop in H. destruct H as [H H3]. apply andb_prop in H. destruct H as [H1 H2].
  rewrite forallb_forall in H1, H2. split; [|split].
  - intros k p I. specialize (H1 _ I). cbn [fst] in H1. unfold gives_number. destruct (getProperty m (tx k)) as [s|]; [|discriminate].
    destruct (rd_stod rd s) as [x| |] eqn:E; try discriminate. exists x, s. auto.
  - intros k p I. specialize (H2 _ I). cbn [fst] in H2. unfold gives_flag. destruct (getProperty m (tx k)) as [s|]; [|discriminate].
    apply Bool.orb_prop in H2. destruct H2 as [H2|H2]; apply text_eqb_eq in H2; subst s; [exists true|exists false]; reflexivity.
  - unfold gives_integer, optional_integer. cbn [fst]. destruct (getProperty m (tx "vent_rate_flag")) as [s|]; [|discriminate].
    destruct (rd_stoi rd s) as [x| |] eqn:E; try discriminate. exists x, s. auto.
Qed.

Lemma complete_example : forall T (N : Num T), exists m a, propertiesOf (Some completeText) = Ok m /\ gives_all (@decimal_reader T N) m /\
  loadBuilding decimal_reader (Some completeText) freshOffice = Ok a.
Proof.
  intros T N. destruct (propertiesOf (Some completeText)) as [m| |] eqn:E; [|vm_compute in E; discriminate..].
  destruct (loadBuilding (@decimal_reader T N) (Some completeText) freshOffice) as [a| |] eqn:F; [|vm_compute in F; discriminate..].
  exists m, a. split; [reflexivity|]. split; [|reflexivity]. apply completeb_ok. vm_compute in E. injection E as <-. vm_compute. reflexivity.
Qed.

Lemma C77_refuted_l : exists first last (u v a b : building_model R),
  loadBuilding decimal_reader first u = Ok v /\ loadBuilding decimal_reader last v = Ok a /\
  loadBuilding decimal_reader last u = Ok b /\
  ve_hzone (pa_ventilation (bm_params a)) = 12 /\ ve_hzone (pa_ventilation (bm_params b)) = 39.
Proof.
  assert (H : forall T (N : Num T), exists v a b,
    loadBuilding (@decimal_reader T N) (Some lowOfficeText) freshOffice = Ok v /\
    loadBuilding (@decimal_reader T N) (Some officeText) v = Ok a /\
    loadBuilding (@decimal_reader T N) (Some officeText) freshOffice = Ok b /\
    rd_stod (@decimal_reader T N) (tx "12") = Value (ve_hzone (pa_ventilation (bm_params a))) /\
    ve_hzone (pa_ventilation (bm_params b)) = ve_hzone (pa_ventilation smallOffice)).
  { intros T N. eexists _, _, _. split; [vm_compute; reflexivity|]. split; [vm_compute; reflexivity|]. split; [vm_compute; reflexivity|].
    split; vm_compute; reflexivity. }
  destruct (H R _) as (v&a&b&H1&H2&H3&H4&H5).
  exists (Some lowOfficeText), (Some officeText), freshOffice, v, a, b. split; [exact H1|]. split; [exact H2|]. split; [exact H3|].
  split.
  - cbn in H4. injection H4 as <-. unfold lit, R_num, Rlit. cbn. lra.
  - rewrite H5. cbn. unfold zn, lit, R_num, Rlit. cbn. lra.
Qed.
