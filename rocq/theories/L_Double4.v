From Coq Require Import Reals Lra Psatz ZArith Bool List Lia.
From Flocq Require Import Core.Core IEEE754.BinarySingleNaN.
From Verif Require Import Base Num Xr Dbl L_Dbl M_Params M_TimeFrame M_Hourly S_Results S_Calendar S_Locality S_Double L_Calendar L_HourlyShape L_HourlyOut L_Locality L_Double L_Double2 L_Double3.
Import ListNotations.
Open Scope R_scope.

Section D.
Context {L : libm}.

(** ** Fans *)
Lemma C09_double_l : forall (p : params_t double) i sc w th, unsigned (ve_fanPower (pa_ventilation p)) ->
  let fan := hr_fan (fst (calculateHour p i sc w th)) in
  is_nan (fan_floor p (sc_vent sc)) = false -> is_nan fan = false -> Bleb (fan_floor p (sc_vent sc)) fan = true.
Proof.
  intros p i sc w th U. unfold calculateHour. cbn [fst hr_fan]. unfold fanEnergy. cbv zeta.
  match goal with |- context [nmax (?a + ?b)%num ?v] => set (x := (a + b)%num); change v with (Bdiv mode_NE (Bmult mode_NE (sc_vent sc) (dlit 36 10)) (st_floorArea (pa_structure p))) end.
  unfold fan_floor. set (v := Bdiv mode_NE (Bmult mode_NE (sc_vent sc) _) _). clearbody x v. intros N1 N2.
  assert (K : unsigned (z2d 1000)) by (apply uns_z2d; lia). assert (K' : unsigned (z2d 3600)) by (apply uns_z2d; lia).
  pose proof (div_nan _ _ N1) as [A1 _]. pose proof (mult_nan _ _ A1) as [A2 _]. pose proof (mult_nan _ _ A2) as [A3 _].
  pose proof (div_nan _ _ N2) as [B1 _]. pose proof (mult_nan _ _ B1) as [B2 _]. pose proof (mult_nan _ _ B2) as [B3 _].
  apply div_mono; [|exact K'|exact N1|exact N2]. apply mult_mono; [|exact K|exact A1|exact B1]. apply mult_mono; [|exact U|exact A2|exact B2].
  unfold nmax in *. change (@nlt double _ x v) with (Bltb x v) in *. destruct (Bltb x v) eqn:E; [apply dle_refl; exact A3|].
  apply dnlt_dle; assumption.
Qed.

(** ** Distribution losses *)
Lemma eta_le_one : forall loss extra : double, unsigned loss -> unsigned extra ->
  let eta := Bdiv mode_NE (z2d 1) (Bplus mode_NE (Bplus mode_NE (z2d 1) loss) extra) in is_nan eta = false -> unsigned eta /\ dle eta (z2d 1).
Proof.
  intros loss extra UL UE eta NE. unfold eta in *. set (D := Bplus mode_NE (Bplus mode_NE (z2d 1) loss) extra) in *.
  pose proof (div_nan _ _ NE) as [_ ND].
  assert (U1 : unsigned (z2d 1)) by (apply uns_z2d; lia). assert (UD : unsigned D) by (apply uns_plus; [apply uns_plus|]; assumption).
  split; [apply uns_div; assumption|].
  assert (PL : forall x y : double, is_nan (Bplus mode_NE x y) = false -> is_nan x = false /\ is_nan y = false) by (intros x y; destruct x, y; cbn; try discriminate; auto).
  assert (Z : forall x, unsigned x -> is_nan x = false -> dle (z2d 0) x) by (intros x X NX; specialize (X NX); destruct x as [[]|[]| |[] ? ? ?]; try discriminate; reflexivity).
  destruct (PL _ _ ND) as [N1 N2]. destruct (PL _ _ N1) as [_ N3].
  assert (P0 : forall x : double, is_finite x = true -> dle x (Bplus mode_NE x (z2d 0))).
  { intros x F. apply (is_rnd_mono (B2R x) (B2R x + B2R (z2d 0))); [apply is_rnd_self; exact F|apply plus_rnd; [exact F|reflexivity]|]. change (B2R (z2d 0)) with 0. lra. }
  assert (D1 : dle (z2d 1) (Bplus mode_NE (z2d 1) loss)) by (eapply dle_trans; [apply P0; reflexivity|apply plus_mono_r; [reflexivity|apply Z; assumption]]).
  assert (D2 : dle (z2d 1) D).
  { eapply dle_trans; [exact D1|]. unfold D. destruct (is_finite (Bplus mode_NE (z2d 1) loss)) eqn:F.
    - eapply dle_trans; [apply P0; exact F|apply plus_mono_r; [exact F|apply Z; assumption]].
    - assert (U2 : unsigned (Bplus mode_NE (z2d 1) loss)) by (apply uns_plus; assumption). specialize (U2 N1).
      destruct (Bplus mode_NE (z2d 1) loss) as [[]|[]| |[] ? ? ?]; try discriminate. specialize (UE N2). destruct extra as [[]|[]| |[] ? ? ?]; try discriminate; reflexivity. }
  destruct (is_finite D) eqn:FD.
  - apply dle_fin in D2; [|reflexivity|exact FD]. rewrite one_R in D2.
    apply (is_rnd_mono (B2R (z2d 1) / B2R D) 1); [apply div_rnd; [reflexivity|exact FD|lra]|rewrite <- one_R; apply is_rnd_self; reflexivity|].
    rewrite one_R. apply Rmult_le_reg_r with (B2R D); [lra|]. unfold Rdiv. rewrite Rmult_assoc, Rinv_l by lra. lra.
  - specialize (UD ND). destruct D as [[]|[]| |[] ? ? ?]; try discriminate. reflexivity.
Qed.
Lemma eta_grows : forall need eta : double, unsigned need -> is_nan need = false -> unsigned eta -> dle eta (z2d 1) -> is_nan (Bdiv mode_NE need eta) = false ->
  dle need (Bdiv mode_NE need eta).
Proof.
  intros q e UQ NQ UE LE N. specialize (UQ NQ). pose proof (dle_number _ _ LE) as [NE _]. specialize (UE NE).
  destruct e as [[]|[]| |[] m ex h]; try discriminate.
  - destruct q as [[]|[]| |[] ? ? ?]; try discriminate; reflexivity.
  - set (e := B754_finite false m ex h) in *. assert (PE : 0 < B2R e) by (apply F2R_gt_0; reflexivity). apply dle_fin in LE; [|reflexivity..]. rewrite one_R in LE.
    destruct (is_finite q) eqn:F.
    + apply (is_rnd_mono (B2R q) (B2R q / B2R e)); [apply is_rnd_self; exact F|apply div_rnd; [exact F|reflexivity|lra]|].
      pose proof (proj1 (sign_R q F) UQ). apply Rmult_le_reg_r with (B2R e); [exact PE|]. unfold Rdiv. rewrite Rmult_assoc, Rinv_l by lra. nra.
    + destruct q as [[]|[]| |[] ? ? ?]; try discriminate. reflexivity.
Qed.
Lemma charged : forall need loss extra eff : double, unsigned need -> is_nan need = false -> unsigned loss -> unsigned extra -> unsigned eff ->
  let eta := Bdiv mode_NE (z2d 1) (Bplus mode_NE (Bplus mode_NE (z2d 1) loss) extra) in
  let x := Bdiv mode_NE (Bdiv mode_NE (Bdiv mode_NE need eta) eff) (z2d 1000) in
  is_nan (lossless need eff) = false -> is_nan x = false -> Bleb (lossless need eff) x = true.
Proof.
  intros need loss extra eff UN NN UL UE UF eta x N1 N2. unfold lossless, x in *. assert (K : unsigned (z2d 1000)) by (apply uns_z2d; lia).
  pose proof (div_nan _ _ N1) as [A1 _]. pose proof (div_nan _ _ N2) as [B1 _]. pose proof (div_nan _ _ B1) as [B2 _]. pose proof (div_nan _ _ B2) as [_ B3].
  apply div_mono; [|exact K|exact N1|exact N2]. apply div_mono; [|exact UF|exact A1|exact B1].
  destruct (eta_le_one loss extra UL UE B3). apply eta_grows; assumption.
Qed.
Lemma raw_need : forall (p : params_t double) ws r0 raw r, simulateRaw p ws r0 = Ok (raw, r) ->
  forall h, In h raw -> (unsigned (hr_Qneed_ht h) /\ is_nan (hr_Qneed_ht h) = false) /\ (unsigned (hr_Qneed_cl h) /\ is_nan (hr_Qneed_cl h) = false).
Proof.
  intros p ws r0 raw r H h Hh. unfold simulateRaw in H. apply obind_ok in H as (tbl&_&H). apply obind_ok in H as (i&_&H).
  apply obind_ok in H as (fr&_&H). apply obind_ok in H as (rw&Hr&H). assert (rw = raw) by congruence. subst rw.
  apply In_nth_error in Hh as (k&Hk). destruct (yearLoop_nth _ _ _ _ _ _ _ Hr k h Hk) as (c&w&sc&th&_&_&_&_&->).
  unfold calculateHour. cbn [fst hr_Qneed_ht hr_Qneed_cl]. split; (split; [apply max0_uns|]); apply (dle_number (z2d 0)), max0_spec.
Qed.
Lemma C14_double_l : forall p ws r0 rows r, unsigned_building p -> simulate p ws r0 false = Ok (rows, r) ->
  exists raw, simulateRaw p ws r0 = Ok (raw, r) /\ forall n h, nth_error raw n = Some h ->
    (forall x, cell rows n (if Beqb (ht_energyType (pa_heating p)) (z2d 1) then elec_heating else gas_heating) = Some x ->
       let least := lossless (hr_Qneed_ht h) (ht_efficiency (pa_heating p)) in is_nan least = false -> is_nan x = false -> Bleb least x = true) /\
    (forall x, cell rows n elec_cooling = Some x ->
       let least := lossless (hr_Qneed_cl h) (cl_cop (pa_cooling p)) in is_nan least = false -> is_nan x = false -> Bleb least x = true).
Proof.
  intros p ws r0 rows r UB H. destruct (simulate_det _ _ _ _ _ _ H) as (raw&HR&_&C). exists raw. split; [exact HR|]. intros n h Hn.
  destruct (raw_need _ _ _ _ _ HR h (nth_error_In _ _ Hn)) as [[U1 N1] [U2 N2]]. cbv iota in C.
  set (Qht := accumulate (map hr_Qneed_ht raw)). set (Qcl := accumulate (map hr_Qneed_cl raw)).
  assert (F1 : unsigned (f_dem_ht Qht Qcl)) by (apply max_uns; [apply lit_uns; lia|exact one_tenth]).
  assert (F2 : unsigned (f_dem_cl Qht Qcl)) by (apply max_uns; [apply lit_uns; lia|exact one_tenth]).
  split.
  - intros x X least NL NX.
    assert (V : cell rows n (if Beqb (ht_energyType (pa_heating p)) (z2d 1) then elec_heating else gas_heating) =
      Some (hr_Qneed_ht h / eta_dist_ht p Qht Qcl / ht_efficiency (pa_heating p) / zn 1000)%num).
    { rewrite (series_cell _ _ (map (fun w => (w / zn 1000)%num) (map (fun need => (need / eta_dist_ht p Qht Qcl / ht_efficiency (pa_heating p))%num) (map hr_Qneed_ht raw)))).
      - rewrite !nth_error_map, Hn. reflexivity.
      - apply C. unfold resultVectors. cbv zeta. fold Qht Qcl. change (@neqb double _ (ht_energyType (pa_heating p)) (zn 1)) with (Beqb (ht_energyType (pa_heating p)) (z2d 1)).
        destruct (Beqb _ _); reflexivity. }
    rewrite V in X. assert (E : x = (hr_Qneed_ht h / eta_dist_ht p Qht Qcl / ht_efficiency (pa_heating p) / zn 1000)%num) by congruence. subst x.
    refine (charged _ (ht_hvacLossFactor (pa_heating p)) (Bdiv mode_NE (ht_hotcoldWasteFactor (pa_heating p)) (f_dem_ht Qht Qcl)) _ U1 N1 _ _ _ NL NX).
    + apply plain_uns, (ub_ht_loss p UB). + apply uns_div; [apply plain_uns, (ub_waste p UB)|exact F1]. + apply plain_uns, (ub_efficiency p UB).
  - intros x X least NL NX.
    assert (V : cell rows n elec_cooling = Some (hr_Qneed_cl h / eta_dist_cl p Qht Qcl / cl_cop (pa_cooling p) / zn 1000)%num).
    { rewrite (series_cell _ _ (map (fun w => (w / zn 1000)%num) (map (fun need => (need / eta_dist_cl p Qht Qcl / cl_cop (pa_cooling p))%num) (map hr_Qneed_cl raw)))).
      - rewrite !nth_error_map, Hn. reflexivity.
      - apply C. reflexivity. }
    rewrite V in X. assert (E : x = (hr_Qneed_cl h / eta_dist_cl p Qht Qcl / cl_cop (pa_cooling p) / zn 1000)%num) by congruence. subst x.
    refine (charged _ (cl_hvacLossFactor (pa_cooling p)) (Bdiv mode_NE (ht_hotcoldWasteFactor (pa_heating p)) (f_dem_cl Qht Qcl)) _ U2 N2 _ _ _ NL NX).
    + apply plain_uns, (ub_cl_loss p UB). + apply uns_div; [apply plain_uns, (ub_waste p UB)|exact F2]. + apply plain_uns, (ub_cop p UB).
Qed.
Lemma C03_run_double_l : forall p ws r0 raw r, simulateRaw p ws r0 = Ok (raw, r) -> forall h, In h raw ->
  at_least_0 (hr_Qneed_ht h) /\ at_least_0 (hr_Qneed_cl h) /\ ~ (positive (hr_Qneed_ht h) /\ positive (hr_Qneed_cl h)).
Proof.
  intros p ws r0 raw r H h Hh. unfold simulateRaw in H. apply obind_ok in H as (tbl&_&H). apply obind_ok in H as (i&_&H).
  apply obind_ok in H as (fr&_&H). apply obind_ok in H as (rw&Hr&H). assert (rw = raw) by congruence. subst rw.
  apply In_nth_error in Hh as (k&Hk). destruct (yearLoop_nth _ _ _ _ _ _ _ Hr k h Hk) as (c&w&sc&th&_&_&_&_&->). apply C03_double_l.
Qed.

(** ** The heating carrier *)
Lemma zero_entry_d : ((zn 0 : double) / zn 1000)%num = z2d 0.
Proof. vm_compute. reflexivity. Qed.
Lemma acc_zero_d : forall l : list double, Forall (eq (z2d 0)) l -> accumulate l = z2d 0.
Proof. intros l H. unfold accumulate. change (@zn double _ 0) with (z2d 0). induction H as [|x l <- _ IH]; [reflexivity|]. exact IH. Qed.
Lemma series_zero_d : forall (agg : bool) k (rows : list (list double)) v, Forall (eq (z2d 0)) v ->
  is_series k rows (if agg then map (fun m => accumulate (month_part m v)) (zrange 1 12) else v) -> forall row, In row rows -> nth_error row k = Some (z2d 0).
Proof.
  intros agg k rows v Z S. assert (Z' : Forall (eq (z2d 0)) (if agg then map (fun m => accumulate (month_part m v)) (zrange 1 12) else v)).
  { destruct agg; [|exact Z]. apply Forall_forall. intros x I. apply in_map_iff in I as (m&<-&_). symmetry. apply acc_zero_d, month_part_Forall, Z. }
  revert Z'. induction S as [|row x rows u Hx _ IH]; intros Z' row' I; [destruct I|]. apply Forall_cons_iff in Z' as [<- Z']. destruct I as [<-|I]; [exact Hx|exact (IH Z' row' I)].
Qed.
Lemma C13_double_l : forall p ws r0 agg rows r, simulate p ws r0 agg = Ok (rows, r) ->
  forall row, In row rows -> nth_error row (if Beqb (ht_energyType (pa_heating p)) (z2d 1) then gas_heating else elec_heating) = Some (z2d 0).
Proof.
  intros p ws r0 agg rows r H. destruct (simulate_det _ _ _ _ _ _ H) as (raw&HR&_&C).
  apply (series_zero_d agg _ rows (map (fun w => (w / zn 1000)%num) (map (fun _ => zn 0) raw))).
  - rewrite map_map. apply Forall_forall. intros x I. apply in_map_iff in I as (h&<-&_). symmetry. apply zero_entry_d.
  - apply C. unfold resultVectors. cbv zeta. change (@neqb double _ (ht_energyType (pa_heating p)) (zn 1)) with (Beqb (ht_energyType (pa_heating p)) (z2d 1)). destruct (Beqb _ _); reflexivity.
Qed.
End D.
