(** The examples and counterexamples of T_Access. *)
From Coq Require Import Ascii String Reals Lra.
From Verif Require Import Base Num Xr Text M_Text M_Properties M_Params M_UserModel M_Access.
From Verif Require Import S_Text S_Properties S_Loading S_Access E_SmallOffice E_Decimal E_OfficeFile E_ShortFile L_Text L_Properties L_Loading L_Access L_Access3 L_Access4.
Open Scope list_scope.

Definition office_extra {T} {N : Num T} : extra_t T :=
  mkExtra (zn 0) (zn 0) (zn 0) (zn 0) (zn 0) (zn 0) (zn 0) (zn 0) (zn 0).

Lemma C74_case_l : forall T (N : Num T), let office_state := mkUserState (mkBuildingModel smallOffice (tx "ORD.epw")) office_extra [] in
  let calls := [CNumber "setWindowAreaE" (zn 5); CVector "setWindowArea" (map zn [1; 2; 3; 4; 5; 6; 7; 8; 9]%Z);
                CNumber "setRoofArea" (zn 50); CVector "setWindowArea" [zn 0]; CText "setBemType" (tx "Advanced"); CBool "setForcedAirCooling" false;
                CNumber "setWindowAreaSW" (zn 77)] in
  nine_each office_state /\ Forall known calls /\
  exists u', run_calls calls office_state = Some (Ok u') /\ read "windowAreaE" u' = Some (Ok (zn 3)) /\
    read "windowAreaSW" u' = Some (Ok (zn 77)) /\ read "roofArea" u' = Some (Ok (zn 50)) /\ read "bemType" u' = Some (Ok (zn 3)) /\
    read "skylightArea" u' = Some (Ok (zn 9)).
Proof.
  intros T N office_state calls. split.
  - apply nine_iff. intros f. destruct f; reflexivity.
  - split.
    + assert (K : forall f (l : list string), existsb (String.eqb f) l = true -> In f l).
      { intros f l H. apply existsb_exists in H. destruct H as (g & G1 & G2). apply String.eqb_eq in G2. subst. exact G1. }
      unfold calls. repeat (apply Forall_cons; [cbn [known]; apply K; vm_compute; reflexivity|]). apply Forall_nil.
    + eexists. split; [vm_compute; reflexivity|]. repeat split; vm_compute; reflexivity.
Qed.

Lemma office_list T (N : Num T) : exists m, propertiesOf (Some officeText) = Ok m /\
  loadBuilding decimal_reader (Some officeText) freshOffice = Ok (mkBuildingModel smallOffice (tx "ORD.epw")) /\
  getPropertyAsDoubleVector decimal_reader m (tx "windowArea") =
    Ok (Some [lit 1674 100; lit 0 1; lit 1116 100; lit 0 1; lit 2065 100; lit 0 1; lit 1116 100; lit 0 1; lit 0 1]).
Proof. eexists. split; [vm_compute; reflexivity|]. split; vm_compute; reflexivity. Qed.

Lemma C75_vector_order_l : exists file m (st : user_state R) u1 xs st',
  propertiesOf file = Ok m /\ loadBuilding decimal_reader file (us_model st) = Ok u1 /\
  getPropertyAsDoubleVector decimal_reader m (tx "windowArea") = Ok (Some xs) /\
  invoke (CVector "setWindowArea" xs) (with_model st u1) = Some (Ok st') /\
  read "windowAreaS" st' <> read "windowAreaS" (with_model st u1).
Proof.
  destruct (office_list R R_num) as (m & M1 & M2 & M3).
  exists (Some officeText), m, (mkUserState freshOffice office_extra []), (mkBuildingModel smallOffice (tx "ORD.epw")). do 2 eexists.
  split; [exact M1|]. split; [exact M2|]. split; [exact M3|]. split; [reflexivity|].
  match goal with |- ?x <> ?y => assert (X : x = Some (Ok (lit 1674 100))) by reflexivity; assert (Y : y = Some (Ok (lit 2065 100))) by reflexivity; rewrite X, Y end.
  intros C. injection C as C. unfold lit, R_num, Rlit in C. lra.
Qed.

(** Concrete maps that agree but for some keys. *)
Definition without (ks : list text) (m : props) : props := filter (fun r => negb (existsb (text_eqb (fst r)) ks)) m.
Lemma find_without ks m k : ~ In k ks -> map_find k (without ks m) = map_find k m.
Proof.
  intros D. induction m as [|[k' v] m IH]; [reflexivity|]. unfold without in *. cbn [filter fst map_find]. destruct (existsb (text_eqb k') ks) eqn:E; cbn [negb map_find].
  - rewrite IH. destruct (text_eqb k k') eqn:Q; [|reflexivity]. apply text_eqb_eq in Q. subst. exfalso. apply D.
    apply existsb_exists in E. destruct E as (x & X1 & X2). apply text_eqb_eq in X2. subst. exact X1.
  - rewrite IH. reflexivity.
Qed.
Lemma maps_agree ks m1 m2 k : without ks m2 = without ks m1 -> ~ In (lower k) ks -> getProperty m2 k = getProperty m1 k.
Proof. intros E D. unfold getProperty. rewrite <- (find_without ks m2), <- (find_without ks m1) by exact D. rewrite E. reflexivity. Qed.

Lemma C75_case_l : forall T (N : Num T), let st := mkUserState freshOffice office_extra [] in
  let file2 := Some (tx "floorArea = 20" ++ [newline] ++ tx "heatingFuelType = Electric" ++ [newline] ++
                     tx "windowArea = 1,2,3,4,5,6,7,8,9" ++ [newline] ++ officeText) in
  let settings := [("floorarea"%string, CNumber "setFloorArea" (lit 20 1)); ("heatingfueltype"%string, CText "setHeatingEnergyCarrier" (tx "Electric"));
                   ("windowArea"%string, CVector "setWindowArea" [lit 5 1; lit 4 1; lit 3 1; lit 2 1; lit 1 1; lit 8 1; lit 7 1; lit 6 1; lit 9 1])] in
  exists m1 m2 u1, propertiesOf (Some officeText) = Ok m1 /\ propertiesOf file2 = Ok m2 /\
  (forall key c, In (key, c) settings -> same_setting decimal_reader m2 key c) /\
  (forall k, (forall key c, In (key, c) settings -> ~ same_word k (tx key)) -> getProperty m2 k = getProperty m1 k) /\
  loadBuilding decimal_reader (Some officeText) (us_model st) = Ok u1 /\
  exists u2, all_calls (map snd settings) (with_model st u1) = Some (Ok (with_model st u2)).
Proof.
  intros T N st file2 settings. do 2 eexists. exists (mkBuildingModel smallOffice (tx "ORD.epw")).
  split; [vm_compute; reflexivity|]. split; [vm_compute; reflexivity|]. split; [|split; [|split; [vm_compute; reflexivity|eexists; reflexivity]]].
  - intros key c [I|[I|[I|[]]]]; apply pair_equal_spec in I; destruct I as [<- <-].
    + change "setFloorArea"%string with (setter_name "floorArea"). eapply setting_number; [|vm_compute; reflexivity|vm_compute; reflexivity].
      unfold documented_numbers. cbn [In]. repeat (first [left; reflexivity|right]).
    + apply setting_text; [|vm_compute; reflexivity]. cbn. tauto.
    + eapply (setting_vector _ _ _ _ [lit 1 1; lit 2 1; lit 3 1; lit 4 1; lit 5 1; lit 6 1; lit 7 1; lit 8 1; lit 9 1]); [cbn; tauto|vm_compute; reflexivity|].
      split; [reflexivity|]. split; [reflexivity|]. intros d. destruct d; reflexivity.
  - intros k D. eapply (maps_agree (map (fun r => lower (tx (fst r))) settings)); [vm_compute; reflexivity|].
    intros I. apply in_map_iff in I. destruct I as ([key c] & E & I). apply (D key c I). apply same_word_lower. symmetry. exact E.
Qed.

Lemma C76_refuted_l : forall T (N : Num T), exists file m u',
  propertiesOf file = Ok m /\ loadBuilding decimal_reader file freshOffice = Ok u' /\
  forall key, In key only_in_tests -> In key documented_required /\ getProperty m (tx key) = None.
Proof.
  intros T N. exists (Some shortText). do 2 eexists. split; [vm_compute; reflexivity|]. split; [vm_compute; reflexivity|].
  intros key I. unfold only_in_tests in I. cbn [In] in I.
  repeat (destruct I as [<-|I]; [split; [unfold documented_required; cbn [In]; repeat (first [left; reflexivity|right])|vm_compute; reflexivity]|]).
  destruct I.
Qed.

Lemma C76_case_l : forall T (N : Num T),
  let with_it := Some (tx "hzone = 12" ++ [newline] ++ officeText) in
  exists m1 m2 (u1 : building_model T), propertiesOf with_it = Ok m1 /\ propertiesOf (Some officeText) = Ok m2 /\
  In ("hzone"%string, "hzone"%string) documented_numbers /\ ~ In "hzone"%string documented_required /\
  loadBuilding decimal_reader with_it freshOffice = Ok u1 /\
  (forall k, ~ same_word k (tx "hzone") -> getProperty m2 k = getProperty m1 k) /\ getProperty m2 (tx "hzone") = None.
Proof.
  intros T N with_it. do 3 eexists. split; [vm_compute; reflexivity|]. split; [vm_compute; reflexivity|].
  split; [unfold documented_numbers; cbn [In]; repeat (first [left; reflexivity|right])|].
  split; [intros C; assert (existsb (String.eqb "hzone") documented_required = true) as E by (apply existsb_exists; eexists; split; [exact C|reflexivity]); vm_compute in E; discriminate|].
  split; [vm_compute; reflexivity|]. split; [|vm_compute; reflexivity].
  intros k D. eapply (maps_agree [tx "hzone"]); [vm_compute; reflexivity|]. intros [I|[]]. apply D. apply same_word_lower. rewrite <- I. reflexivity.
Qed.
