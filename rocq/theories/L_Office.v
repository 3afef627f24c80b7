(** The small office is a physical building; a constant weather year. *)
From Coq Require Import Reals Lra ZArith List Bool Lia.
From Verif Require Import Base Num Xr M_Params M_Hourly M_Map E_SmallOffice S_Physical L_Xr L_HourlyShape.
Import ListNotations.
Open Scope R_scope.

Lemma office_nonneg l : Forall (fun x => 0 <= x) l -> all_nonneg l.
Proof. intros H x Hx. rewrite Forall_forall in H. exact (H x Hx). Qed.
Ltac nn := apply office_nonneg; cbn; cbv [zn]; cbn; cbv [Rlit]; repeat constructor; lra.

Lemma office_physical : physical (@smallOffice R R_num).
Proof.
  constructor; try reflexivity; try nn.
  all: cbn; cbv [zn]; cbn; cbv [Rlit]; try lra.
  apply Rmax_lub_lt; lra.
Qed.

Lemma office_map : map_params Fin (@smallOffice R R_num) = @smallOffice xr xr_num.
Proof. reflexivity. Qed.

(** Calm night, everywhere and always. *)
Definition constant_year (n : Z) {T} {N : Num T} (t : T) : list (weather T) :=
  repeat {| we_wind := zn 2; we_temp := t; we_sol := repeat (zn 0) 9 |} (Z.to_nat n).

Lemma constant_year_nine n {T} {N : Num T} (t : T) : forall w, In w (constant_year n t) -> nine (we_sol w) = true.
Proof. intros w Hw. apply repeat_spec in Hw. subst w. reflexivity. Qed.
Lemma constant_year_length n {T} {N : Num T} (t : T) : (0 <= n)%Z -> Z.of_nat (length (constant_year n t)) = n.
Proof. intros H. unfold constant_year. rewrite repeat_length. lia. Qed.

Lemma Int_part_IZR z : Int_part (IZR z) = z.
Proof.
  unfold Int_part. pose proof (archimed (IZR z)) as [H1 H2].
  assert (IZR (up (IZR z)) = IZR (z + 1)).
  { assert (A : (z < up (IZR z))%Z) by (apply lt_IZR; lra).
    assert (B : (up (IZR z) <= z + 1)%Z). { apply le_IZR. rewrite plus_IZR. lra. }
    f_equal. lia. }
  apply eq_IZR in H. lia.
Qed.
Lemma Rtoint_IZR z : (0 <= z <= int_max)%Z -> Rtoint (IZR z) = Some z.
Proof.
  intros H. unfold Rtoint, Rtrunc. destruct (Rlt_dec (IZR z) 0) as [L|L].
  - apply lt_IZR in L. lia.
  - rewrite Int_part_IZR. unfold int_min, int_max in *.
    destruct (Z.leb_spec (-2147483648) z); [|lia]. destruct (Z.leb_spec z 2147483647); [|lia]. reflexivity.
Qed.
Lemma ntrunc_zn z : (0 <= z <= int_max)%Z -> ntrunc (@zn xr _ z) = Some z.
Proof.
  intros H. cbv [zn]. cbn. unfold Rlit. replace (IZR z / 1) with (IZR z) by lra. apply Rtoint_IZR, H.
Qed.
Lemma office_ints : ints_ok (pa_population (@smallOffice xr xr_num)).
Proof.
  unfold ints_ok. cbn [smallOffice pa_population po_daysStart po_daysEnd po_hoursStart po_hoursEnd].
  rewrite !ntrunc_zn by (unfold int_max; lia). repeat split; discriminate.
Qed.
Lemma office_runs agg t : exists rows r, simulate (@smallOffice xr xr_num) (constant_year 8760 t) no_ratios agg = Ok (rows, r).
Proof.
  destruct (simulateRaw_ok (@smallOffice xr xr_num) (constant_year 8760 t) no_ratios) as (raw & r & E).
  - apply office_ints.
  - reflexivity.
  - rewrite constant_year_length; lia.
  - apply constant_year_nine.
  - destruct (simulate_both _ _ _ _ _ E) as (h & m & E1 & E2 & _).
    destruct agg; eexists; eexists; eassumption.
Qed.
