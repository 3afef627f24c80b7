(** A temperature that is not a number stays: the hourly engine after an hour of broken weather. *)
From Coq Require Import Reals Lra Lia ZArith Bool List.
From Flocq Require Import Core.Core IEEE754.BinarySingleNaN.
From Verif Require Import Base Num Xr Dbl L_Dbl M_TimeFrame M_Params M_Hourly S_Results L_HourlyShape L_HourlyOut S_Broken.
Import ListNotations.

Section Nan.
Context {L : libm}.
#[local] Existing Instance dbl_num.
Lemma add_nl : forall x : double, Bplus mode_NE B754_nan x = B754_nan. Proof. reflexivity. Qed.
Lemma add_nr : forall x : double, Bplus mode_NE x B754_nan = B754_nan. Proof. destruct x; reflexivity. Qed.
Lemma sub_nr : forall x : double, Bminus mode_NE x B754_nan = B754_nan. Proof. destruct x; reflexivity. Qed.
Lemma mul_nl : forall x : double, Bmult mode_NE B754_nan x = B754_nan. Proof. reflexivity. Qed.
Lemma mul_nr : forall x : double, Bmult mode_NE x B754_nan = B754_nan. Proof. destruct x; reflexivity. Qed.
Lemma div_nl : forall x : double, Bdiv mode_NE B754_nan x = B754_nan. Proof. reflexivity. Qed.
Lemma sum_n : forall (l : list double) x, In B754_nan l \/ x = B754_nan -> fold_left (Bplus mode_NE) l x = B754_nan.
Proof.
  induction l as [|y l IH]; intros x H; [destruct H as [[] | ->]; reflexivity|]. cbn [fold_left]. apply IH.
  destruct H as [[-> | H] | ->]; [right; apply add_nr|left; exact H|right; reflexivity].
Qed.
(** The network carries a number that is not one, or the mass does. *)
Definition lost (n : net double) (m : double) : Prop := m = B754_nan \/ ne_T n = B754_nan \/ ne_phim0 n = B754_nan /\ ne_phis0 n = B754_nan.
Lemma mass_lost : forall n m phi, lost n m -> massTemp (N := dbl_num L) n m phi = B754_nan.
Proof.
  intros n m phi H. unfold massTemp, phimTotal. cbn [nadd nsub nmul ndiv dbl_num].
  destruct H as [-> | [-> | [-> _]]]; rewrite ?mul_nl, ?mul_nr, ?add_nl, ?add_nr, ?mul_nl, ?add_nl, ?add_nr, ?div_nl; reflexivity.
Qed.
Lemma surf_lost : forall n m phi, lost n m -> surfTemp (N := dbl_num L) n m phi = B754_nan.
Proof.
  intros n m phi H. unfold surfTemp. rewrite (mass_lost n m phi H). cbn [nadd nsub nmul ndiv dbl_num]. rewrite add_nr, !mul_nr, !add_nl. reflexivity.
Qed.
Lemma air_lost : forall n m phi, lost n m -> airTemp (N := dbl_num L) n m phi = B754_nan.
Proof.
  intros n m phi H. unfold airTemp. rewrite (surf_lost n m phi H). cbn [nadd nsub nmul ndiv dbl_num]. rewrite !mul_nr, !add_nl. reflexivity.
Qed.
Lemma plant_lost : forall n m phi a b, lost n m -> plantPower (N := dbl_num L) n m phi a b = B754_nan.
Proof.
  intros n m phi a b H. unfold plantPower. rewrite !(air_lost n m _ H). cbn [nadd nsub nmul ndiv dbl_num]. rewrite !sub_nr, !mul_nr, !div_nl. reflexivity.
Qed.
Lemma hour_lost : forall p i sc w th, lost (hourNet (N := dbl_num L) p i sc w th) (th_TMT1 th) ->
  let h := fst (calculateHour (N := dbl_num L) p i sc w th) in
  hr_Qneed_ht h = z2d 0 /\ hr_Qneed_cl h = z2d 0 /\ hr_pump h = z2d 0 /\ th_TMT1 (snd (calculateHour (N := dbl_num L) p i sc w th)) = B754_nan.
Proof.
  intros p i sc w th H. unfold calculateHour. cbv zeta. cbn [fst snd hr_Qneed_ht hr_Qneed_cl hr_pump th_TMT1]. rewrite !(plant_lost _ _ _ _ _ H), (mass_lost _ _ _ H). repeat split.
Qed.
Lemma broken_lost : forall p i sc w th, broken w -> lost (hourNet (N := dbl_num L) p i sc w th) (th_TMT1 th).
Proof.
  intros p i sc w th [B | (d&D&B)]; unfold hourNet, network, lost; cbn [ne_T ne_phim0 ne_phis0]; [right; left; exact B|right; right].
  assert (Q : qSolarHeatGain (N := dbl_num L) (pa_structure p) i (we_sol w) = B754_nan).
  { unfold qSolarHeatGain, accumulate. cbn [nadd dbl_num]. apply sum_n. left. apply in_map_iff. exists d. split; [|apply in_seq; lia].
    unfold at9 at 1. rewrite (nth_error_nth _ _ _ B). reflexivity. }
  rewrite Q. cbn [nadd nmul dbl_num]. rewrite !mul_nr, !add_nl. split; reflexivity.
Qed.
Lemma year_lost : forall p i tbl frame ws th raw, yearLoop (N := dbl_num L) p i tbl frame ws th = Ok raw -> th_TMT1 th = B754_nan ->
  Forall (fun h => hr_Qneed_ht h = z2d 0 /\ hr_Qneed_cl h = z2d 0 /\ hr_pump h = z2d 0) raw.
Proof.
  intros p i tbl frame. induction frame as [|[c|] frame IH]; intros ws th raw H N; cbn [yearLoop] in H.
  - assert (raw = []) by congruence. subst. apply Forall_nil.
  - destruct ws as [|w ws]; [discriminate H|]. destruct (nine (we_sol w)); cbn [negb] in H; [|discriminate H].
    apply obind_ok in H as (sc&_&H). pose proof (hour_lost p i sc w th (or_introl N)) as HL. destruct (calculateHour p i sc w th) as [r1 th'].
    apply obind_ok in H as (rs&HR&H). assert (raw = r1 :: rs) by congruence. subst raw. cbn [fst snd] in HL. destruct HL as (A&B&C&D).
    apply Forall_cons; [repeat split; assumption|]. eapply IH; eassumption.
  - discriminate H.
Qed.
Lemma year_broken : forall p i tbl frame ws th raw k w, yearLoop (N := dbl_num L) p i tbl frame ws th = Ok raw -> nth_error ws k = Some w -> broken w ->
  forall j h, (k <= j)%nat -> nth_error raw j = Some h -> hr_Qneed_ht h = z2d 0 /\ hr_Qneed_cl h = z2d 0 /\ hr_pump h = z2d 0.
Proof.
  intros p i tbl frame. induction frame as [|[c|] frame IH]; intros ws th raw k w H K B j h J HJ; cbn [yearLoop] in H.
  - assert (raw = []) by congruence. subst. destruct j; discriminate HJ.
  - destruct ws as [|w0 ws]; [discriminate H|]. destruct (nine (we_sol w0)); cbn [negb] in H; [|discriminate H].
    apply obind_ok in H as (sc&_&H). pose proof (fun b => hour_lost p i sc w0 th (broken_lost p i sc w0 th b)) as HL. destruct (calculateHour p i sc w0 th) as [r1 th'].
    apply obind_ok in H as (rs&HR&H). assert (raw = r1 :: rs) by congruence. subst raw. cbn [fst snd] in HL.
    destruct k as [|k]; cbn [nth_error] in K.
    + assert (w0 = w) by congruence. subst w0. destruct (HL B) as (A1&A2&A3&A4). pose proof (year_lost _ _ _ _ _ _ _ HR A4) as F.
      assert (F2 : Forall (fun h => hr_Qneed_ht h = z2d 0 /\ hr_Qneed_cl h = z2d 0 /\ hr_pump h = z2d 0) (r1 :: rs)) by (apply Forall_cons; [repeat split; assumption|exact F]).
      rewrite Forall_forall in F2. apply F2. eapply nth_error_In. exact HJ.
    + destruct j as [|j]; [lia|]. cbn [nth_error] in HJ. eapply (IH _ _ _ k w HR K B j h); [lia|exact HJ].
  - discriminate H.
Qed.
Lemma C122_needs_l : forall p ws r0 raw r k w, simulateRaw (N := dbl_num L) p ws r0 = Ok (raw, r) -> nth_error ws k = Some w -> broken w ->
  forall j h, (k <= j)%nat -> nth_error raw j = Some h -> hr_Qneed_ht h = z2d 0 /\ hr_Qneed_cl h = z2d 0 /\ hr_pump h = z2d 0.
Proof.
  intros p ws r0 raw r k w H K B. unfold simulateRaw in H. apply obind_ok in H as (tbl&_&H). apply obind_ok in H as (i&_&H).
  apply obind_ok in H as (fr&_&H). apply obind_ok in H as (rw&Hr&H). assert (rw = raw) by congruence. subst rw. eapply year_broken; eassumption.
Qed.
Lemma zero_div : forall x : double, no_energy (Bdiv mode_NE (z2d 0) x).
Proof. intros x. destruct x as [s|s| |s m e hh]; cbn; unfold no_energy; cbn; auto. Qed.
Lemma none_div : forall x y : double, no_energy x -> no_energy (Bdiv mode_NE x y).
Proof.
  intros x y [H | [F Z]].
  - destruct x; try discriminate. left. reflexivity.
  - destruct x as [s|s| |s m e hh]; try discriminate.
    + destruct y as [t|t| |t m e hh]; cbn; unfold no_energy; cbn; auto.
    + exfalso. cbn in Z. apply eq_0_F2R in Z. destruct s; discriminate.
Qed.
Lemma none_zero : no_energy (z2d 0). Proof. right. split; reflexivity. Qed.
Lemma C122_table_l : forall p ws r0 rows r k w, simulate (N := dbl_num L) p ws r0 false = Ok (rows, r) -> nth_error ws k = Some w -> broken w ->
  forall j row u, (k <= j)%nat -> nth_error rows j = Some row -> In u plant_uses -> exists x, nth_error row u = Some x /\ no_energy x.
Proof.
  intros p ws r0 rows r k w H K B j row u J HJ U. destruct (simulate_det _ _ _ _ _ _ H) as (raw&HR&_&C). cbn iota in C.
  assert (NE : forall j h, (k <= j)%nat -> nth_error raw j = Some h -> hr_Qneed_ht h = z2d 0 /\ hr_Qneed_cl h = z2d 0 /\ hr_pump h = z2d 0) by (eapply C122_needs_l; eassumption).
  assert (G : forall v, nth_error (resultVectors (N := dbl_num L) p raw) u = Some v -> (forall x, nth_error v j = Some x -> no_energy x) -> exists x, nth_error row u = Some x /\ no_energy x).
  { intros v V X. pose proof (C u v V) as S. unfold is_series in S. clear - S HJ X. revert j HJ X. induction S as [|r0 x0 rs xs E _ IH]; intros j HJ X; [destruct j; discriminate|].
    destruct j as [|j]; cbn [nth_error] in HJ; [exists x0; split; [congruence|apply X; reflexivity]|apply (IH j HJ); intros x E2; apply X; exact E2]. }
  assert (Z : forall f : hourres double -> double, (forall h, nth_error raw j = Some h -> no_energy (f h)) -> forall x, nth_error (map f raw) j = Some x -> no_energy x).
  { intros f F x E. rewrite nth_error_map in E. destruct (nth_error raw j) as [h|]; [|discriminate]. cbn in E. assert (x = f h) by congruence. subst x. apply F. reflexivity. }
  unfold plant_uses in U. cbn [In] in U. unfold resultVectors in G. cbv zeta in G. cbn [map] in G.
  destruct U as [<- | [<- | [<- | [<- | []]]]]; (eapply G; [reflexivity|]).
  - match goal with |- context [if ?b then _ else _] => destruct b end; rewrite ?map_map; apply Z; intros h E; destruct (NE j h J E) as (A & _ & _); try rewrite A; cbn [ndiv dbl_num];
      repeat apply none_div; apply none_zero.
  - rewrite ?map_map; apply Z; intros h E; destruct (NE j h J E) as (_ & -> & _); cbn [ndiv dbl_num]; repeat apply none_div; apply none_zero.
  - rewrite ?map_map; apply Z; intros h E; destruct (NE j h J E) as (_ & _ & ->); cbn [ndiv dbl_num]; repeat apply none_div; apply none_zero.
  - match goal with |- context [if ?b then _ else _] => destruct b end; rewrite ?map_map; apply Z; intros h E; destruct (NE j h J E) as (A & _ & _); try rewrite A; cbn [ndiv dbl_num];
      repeat apply none_div; apply none_zero.
Qed.
End Nan.
