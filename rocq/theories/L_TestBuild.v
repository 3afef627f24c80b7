(** The two builds compared. *)
From Coq Require Import Ascii String Lia.
From Verif Require Import Base Num Text M_Text M_Properties M_Params M_UserModel M_Access M_TestBuild S_Text S_Loading S_Access S_TestBuild
  E_SmallOffice E_Decimal E_OfficeFile E_ShortFile L_Properties L_HourlyShape L_Loading L_Loading2 L_Loading3 L_Access4.
Open Scope list_scope.

Definition extra_dec (f g : extra_field) : {f = g} + {f <> g}. Proof. decide equality. Defined.

Section Builds.
Context {T : Type} {N : Num T}.
Implicit Types (u : user_state T) (rd : reader T).

Lemma with_model_model u x : us_model (with_model u x) = x. Proof. reflexivity. Qed.
Lemma old_ok rd m l : forall u u', ofold (initializeOld rd m) l u = Ok u' <->
  ofold (initializeParameter rd m) l (us_model u) = Ok (us_model u') /\ us_extra u' = us_extra u /\ us_schedule u' = us_schedule u.
Proof.
  induction l as [|b l IH]; intros u u'; cbn [ofold].
  - split; [intros E; injection E as <-; auto|]. intros (E & E1 & E2). destruct u, u'; cbn in *. injection E as <-. subst. reflexivity.
  - assert (B : initializeOld rd m u b = obind (initializeParameter rd m (us_model u) b) (fun x => Ok (with_model u x))) by reflexivity. rewrite B. clear B.
    destruct (initializeParameter rd m (us_model u) b) as [x|e|]; cbn [obind].
    + rewrite (IH (with_model u x) u'). cbn [us_model us_extra us_schedule with_model]. reflexivity.
    + split; [discriminate|intros (E & _); discriminate].
    + split; [discriminate|intros (E & _); discriminate].
Qed.
Definition given rd m u (b : new_binding) : Prop :=
  match b with
  | NDouble key f => exists s x, getProperty m key = Some s /\ rd_stod rd s = Value x /\ get_extra f (us_extra u) = x
  | NSchedule key => getProperty m key = Some (us_schedule u)
  end.
Lemma double_some rd m key x : getPropertyAsDouble rd m key = Ok (Some x) <-> exists s, getProperty m key = Some s /\ rd_stod rd s = Value x.
Proof.
  unfold getPropertyAsDouble. destruct (getProperty m key) as [s|].
  - unfold try_parse. split.
    + intros E. exists s. split; [reflexivity|]. destruct (rd_stod rd s); congruence.
    + intros (s' & E & V). injection E as <-. rewrite V. reflexivity.
  - split; [discriminate|intros (s & E & _); discriminate].
Qed.
Lemma extra_all u u' : (forall f, get_extra f (us_extra u) = get_extra f (us_extra u')) -> us_extra u = us_extra u'.
Proof.
  intros H. destruct u as [m e s], u' as [m' e' s']. cbn [us_extra] in *. destruct e, e'.
  pose proof (H X_ElectricAppliancePowerFixedOccupied). pose proof (H X_ElectricAppliancePowerFixedUnoccupied). pose proof (H X_GasAppliancePowerFixedOccupied).
  pose proof (H X_GasAppliancePowerFixedUnoccupied). pose proof (H X_LightingPowerFixedOccupied). pose proof (H X_LightingPowerFixedUnoccupied).
  pose proof (H X_InfiltrationRateUnoccupied). pose proof (H X_VentilationExhaustRateUnoccupied). pose proof (H X_VentilationIntakeRateUnoccupied). cbn in *. congruence.
Qed.
Definition nine_numbers : list (string * extra_field) := [
  ("ventilationIntakeRateUnoccupied"%string, X_VentilationIntakeRateUnoccupied);
  ("ventilationExhaustRateUnoccupied"%string, X_VentilationExhaustRateUnoccupied);
  ("infiltrationRateUnoccupied"%string, X_InfiltrationRateUnoccupied);
  ("lightingPowerFixedOccupied"%string, X_LightingPowerFixedOccupied);
  ("lightingPowerFixedUnoccupied"%string, X_LightingPowerFixedUnoccupied);
  ("electricAppliancePowerFixedOccupied"%string, X_ElectricAppliancePowerFixedOccupied);
  ("electricAppliancePowerFixedUnoccupied"%string, X_ElectricAppliancePowerFixedUnoccupied);
  ("gasAppliancePowerFixedOccupied"%string, X_GasAppliancePowerFixedOccupied);
  ("gasAppliancePowerFixedUnoccupied"%string, X_GasAppliancePowerFixedUnoccupied)].
Lemma new_table : new_bindings = map (fun r => NDouble (tx (fst r)) (snd r)) nine_numbers ++ [NSchedule (tx "schedulefilepath")].
Proof. reflexivity. Qed.
Lemma nine_read u : Forall (fun r => read (fst r) u = Some (Ok (get_extra (snd r) (us_extra u)))) nine_numbers.
Proof. unfold nine_numbers. repeat (constructor; [reflexivity|]). constructor. Qed.
Lemma nine_in k : In k only_in_tests -> k <> "schedulefilepath"%string -> exists f, In (k, f) nine_numbers.
Proof.
  intros I D. assert (X : forallb (fun k => String.eqb k "schedulefilepath" || existsb (fun r => String.eqb (fst r) k) nine_numbers) only_in_tests = true) by (vm_compute; reflexivity).
  rewrite forallb_forall in X. specialize (X k I). apply Bool.orb_prop in X. destruct X as [X|X]; [apply String.eqb_eq in X; contradiction|].
  apply existsb_exists in X. destruct X as ([k' f] & A & B). apply String.eqb_eq in B. cbn [fst] in B. subst k'. eauto.
Qed.
Lemma nine_out k f : In (k, f) nine_numbers -> In k only_in_tests /\ k <> "schedulefilepath"%string.
Proof.
  intros I. assert (X : forallb (fun r => existsb (String.eqb (fst r)) only_in_tests && negb (String.eqb (fst r) "schedulefilepath")) nine_numbers = true) by (vm_compute; reflexivity).
  rewrite forallb_forall in X. specialize (X _ I). cbn [fst] in X. apply andb_prop in X. destruct X as [X Y]. split.
  - apply existsb_exists in X. destruct X as (k' & A & B). apply String.eqb_eq in B. subst k'. exact A.
  - intros ->. rewrite String.eqb_refl in Y. discriminate Y.
Qed.
(** The ten calls succeed exactly with all ten given. *)
Definition extra_eqb (f g : extra_field) : bool := if extra_dec f g then true else false.
Lemma get_set f g x (e : extra_t T) : get_extra g (set_extra f x e) = if extra_eqb f g then x else get_extra g e.
Proof. destruct f, g; reflexivity. Qed.
Lemma numbers_ok rd m l : NoDup (map snd l) -> forall u u', ofold (initializeNew rd m) (map (fun r => NDouble (tx (fst r)) (snd r)) l) u = Ok u' ->
  us_model u' = us_model u /\ us_schedule u' = us_schedule u /\ Forall (given rd m u') (map (fun r => NDouble (tx (fst r)) (snd r)) l) /\
  forall f, ~ In f (map snd l) -> get_extra f (us_extra u') = get_extra f (us_extra u).
Proof.
  induction l as [|[k f] l IH]; intros ND u u' E; cbn [map ofold fst snd] in *.
  - injection E as <-. auto.
  - inversion ND as [|a b NI ND']; subst. destruct (obind_ok _ _ _ E) as (v & E1 & E2). cbn [initializeNew] in E1.
    destruct (obind_ok _ _ _ E1) as (o & P & E1'). destruct o as [x|]; [|discriminate E1']. injection E1' as <-.
    destruct (IH ND' _ _ E2) as (A & B & C & D). cbn [us_model us_schedule us_extra] in *. split; [exact A|]. split; [exact B|]. split.
    + constructor; [|exact C]. cbn [given]. apply double_some in P. destruct P as (s & P & Q). exists s, x. split; [exact P|]. split; [exact Q|].
      rewrite (D f NI), get_set. destruct f; reflexivity.
    + intros g G. rewrite (D g (fun Z => G (or_intror Z))). rewrite get_set. destruct (extra_eqb f g) eqn:EQ; [|reflexivity]. exfalso. apply G. left. destruct f, g; (reflexivity || discriminate EQ).
Qed.
Lemma nine_nodup : NoDup (map snd nine_numbers).
Proof. unfold nine_numbers. cbn [map snd]. repeat (constructor; [cbn [In]; intuition discriminate|]). constructor. Qed.
Lemma new_ok rd m u u' : ofold (initializeNew rd m) new_bindings u = Ok u' <->
  us_model u' = us_model u /\ Forall (given rd m u') new_bindings.
Proof.
  assert (F : forall u', ofold (initializeNew rd m) new_bindings u = Ok u' -> us_model u' = us_model u /\ Forall (given rd m u') new_bindings).
  { clear u'. intros u' E. rewrite new_table in *. rewrite ofold_app in E. destruct (obind_ok _ _ _ E) as (v & E1 & E2).
    destruct (numbers_ok rd m _ nine_nodup _ _ E1) as (A & B & C & D). cbn [ofold initializeNew] in E2.
    destruct (getProperty m (tx "schedulefilepath")) as [s|] eqn:GS; cbn [obind] in E2; [|discriminate E2]. injection E2 as <-. cbn [us_model].
    split; [exact A|]. rewrite Forall_app. split; [|constructor; [exact GS|constructor]].
    rewrite Forall_map in *. exact C. }
  split; [apply F|]. intros [E G].
  assert (K : exists v, ofold (initializeNew rd m) new_bindings u = Ok v).
  { assert (ST : forall l, Forall (given rd m u') l -> forall v, exists v', ofold (initializeNew rd m) l v = Ok v').
    { induction 1 as [|b l B _ IH]; intros v; [eexists; reflexivity|]. cbn [ofold]. destruct b as [key f|key]; cbn [initializeNew].
      - destruct B as (s & x & P & Q & _). assert (D : getPropertyAsDouble rd m key = Ok (Some x)) by (apply double_some; eauto). rewrite D. cbn [obind]. apply IH.
      - cbn [given] in B. rewrite B. cbn [obind]. apply IH. }
    apply ST. exact G. }
  destruct K as (v & V). destruct (F v V) as [VM VG]. rewrite V. f_equal. rewrite new_table, Forall_app, Forall_map, Forall_forall in G, VG.
  destruct G as [G GS]. destruct VG as [VG VS]. inversion GS as [|b l S1 _]; subst. inversion VS as [|b l S2 _]; subst. cbn [given] in S1, S2.
  assert (S : us_schedule v = us_schedule u') by congruence.
  assert (X : us_extra v = us_extra u').
  { apply extra_all. intros f. assert (I : exists k, In (k, f) nine_numbers) by (destruct f; eexists; unfold nine_numbers; cbn [In]; repeat (first [left; reflexivity|right])).
    destruct I as (k & I). destruct (G _ I) as (s & x & P1 & P2 & P3). destruct (VG _ I) as (s' & x' & Q1 & Q2 & Q3). cbn [fst snd] in *. congruence. }
  destruct v, u'; cbn in *. congruence.
Qed.
Lemma given_ten rd m u : Forall (given rd m u) new_bindings <-> ten_given rd m u.
Proof.
  pose proof (nine_read u) as NR. rewrite Forall_forall in NR. rewrite new_table, Forall_app, Forall_map, Forall_forall. split.
  - intros [G S]. inversion S as [|b l B _]; subst. split; [|exact B].
    intros key I D. destruct (nine_in key I D) as (f & F). pose proof (NR _ F) as R. destruct (G _ F) as (s & x & P & Q & V). cbn [fst snd] in *.
    exists s, x. split; [exact P|]. split; [exact Q|]. rewrite R, V. reflexivity.
  - intros [G S]. split; [|constructor; [exact S|constructor]].
    intros [k f] F. destruct (nine_out k f F) as [I D]. pose proof (NR _ F) as R. destruct (G k I D) as (s & x & P & Q & V). cbn [fst snd] in *.
    exists s, x. split; [exact P|]. split; [exact Q|]. rewrite R in V. injection V as V. exact V.
Qed.
Lemma ten_same rd m u u' : us_extra u' = us_extra u -> us_schedule u' = us_schedule u -> Forall (given rd m u') new_bindings <-> Forall (given rd m u) new_bindings.
Proof. intros E S. split; apply Forall_impl; intros [key f|key]; cbn [given]; rewrite ?E, ?S; auto. Qed.
Lemma test_ok rd m u u' : (do u1 <- initializeParametersTest rd m u; ofold (initializeOld rd m) structure_bindings u1) = Ok u' <->
  (do x <- initializeParameters rd m (us_model u); initializeStructure rd m x) = Ok (us_model u') /\ ten_given rd m u'.
Proof.
  rewrite <- given_ten. unfold initializeParametersTest, initializeParameters, initializeStructure.
  assert (SP : ofold (initializeParameter rd m) parameter_bindings (us_model u) = obind (ofold (initializeParameter rd m) (firstn 48 parameter_bindings) (us_model u)) (ofold (initializeParameter rd m) (skipn 48 parameter_bindings))).
  { rewrite <- ofold_app, firstn_skipn. reflexivity. }
  rewrite SP. split.
  - intros E. destruct (obind_ok _ _ _ E) as (v & E1 & E4). destruct (obind_ok _ _ _ E1) as (v1 & E1' & E2). destruct (obind_ok _ _ _ E2) as (v2 & E2' & E3).
    apply old_ok in E1', E3, E4. apply new_ok in E2'. destruct E1' as (A1 & _). destruct E2' as (B1 & B2). destruct E3 as (C1 & C2 & C3). destruct E4 as (D1 & D2 & D3).
    rewrite A1. cbn [obind]. rewrite <- B1, C1. cbn [obind]. split; [exact D1|]. apply (ten_same rd m v2); [congruence|congruence|exact B2].
  - intros [E G]. destruct (obind_ok _ _ _ E) as (x & E1 & E4). destruct (obind_ok _ _ _ E1) as (x1 & E1' & E3).
    assert (A : ofold (initializeOld rd m) (firstn 48 parameter_bindings) u = Ok (with_model u x1)) by (apply old_ok; auto). rewrite A. cbn [obind].
    set (v2 := mkUserState x1 (us_extra u') (us_schedule u')).
    assert (B : ofold (initializeNew rd m) new_bindings (with_model u x1) = Ok v2) by (apply new_ok; split; [reflexivity|]; apply (ten_same rd m u'); auto). rewrite B. cbn [obind].
    assert (C : ofold (initializeOld rd m) (skipn 48 parameter_bindings) v2 = Ok (with_model v2 x)) by (apply old_ok; auto). rewrite C. cbn [obind].
    apply old_ok. auto.
Qed.
Lemma C98_one_l rd file u u' : loadTest rd file u = Ok u' <->
  exists m, propertiesOf file = Ok m /\ loadBuilding rd file (us_model u) = Ok (us_model u') /\ ten_given rd m u'.
Proof.
  unfold loadTest, loadBuilding. destruct (propertiesOf file) as [m|e|]; cbn [obind].
  - rewrite test_ok. split; [intros [A B]; exists m; auto|]. intros (m' & E & A & B). injection E as <-. auto.
  - split; [discriminate|intros (m & E & _); discriminate].
  - split; [discriminate|intros (m & E & _); discriminate].
Qed.
Lemma C98_two_l rd file defaults u u' : loadTest2 rd file defaults u = Ok u' <->
  exists m, propertiesOf2 file defaults = Ok m /\ loadBuilding2 rd file defaults (us_model u) = Ok (us_model u') /\ ten_given rd m u'.
Proof.
  unfold loadTest2, loadBuilding2. destruct (propertiesOf2 file defaults) as [m|e|]; cbn [obind].
  - rewrite test_ok. split; [intros [A B]; exists m; auto|]. intros (m' & E & A & B). injection E as <-. auto.
  - split; [discriminate|intros (m & E & _); discriminate].
  - split; [discriminate|intros (m & E & _); discriminate].
Qed.
(** In the test build the documentation is right. *)
Lemma C98_required_l rd file m u u' key : In key documented_required -> propertiesOf file = Ok m -> loadTest rd file u = Ok u' -> exists s, getProperty m (tx key) = Some s.
Proof.
  intros I P E. apply C98_one_l in E. destruct E as (m' & P' & E & G & S). assert (m' = m) as -> by congruence.
  destruct (in_dec string_dec key only_in_tests) as [X|X]; [|exact (C76_required_l rd file m _ _ key I X P E)].
  destruct (string_dec key "schedulefilepath") as [-> |D]; [eauto|]. destruct (G key X D) as (s & x & Q & _). eauto.
Qed.
End Builds.

Definition zero_extra {T} {N : Num T} : extra_t T := mkExtra (zn 0) (zn 0) (zn 0) (zn 0) (zn 0) (zn 0) (zn 0) (zn 0) (zn 0).
Definition freshUser {T} {N : Num T} : user_state T := mkUserState freshOffice zero_extra [].
Lemma C98_office_l : forall T (N : Num T), exists u' : user_state T,
  loadTest decimal_reader (Some officeText) freshUser = Ok u' /\ us_model u' = mkBuildingModel smallOffice (tx "ORD.epw") /\ us_schedule u' = tx "./schedule.txt".
Proof. intros. eexists. split; [vm_compute; reflexivity|]. split; vm_compute; reflexivity. Qed.
Lemma C98_short_l : forall T (N : Num T), loadTest decimal_reader (Some shortText) freshUser = Throw InvalidArgument /\
  exists x, loadBuilding decimal_reader (Some shortText) (us_model freshUser) = Ok x.
Proof. intros. split; [vm_compute; reflexivity|]. eexists. vm_compute. reflexivity. Qed.
