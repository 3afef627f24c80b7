(** Two years that differ in January, and two hourly years that differ in temperature and wind. *)
From Coq Require Import List ZArith Lia Reals Lra.
From Verif Require Import Base Num Xr M_Params M_Hourly M_Monthly M_Map S_Results S_Monthly S_Locality L_Xr L_HourlyShape L_Office L_Monthly3 L_Monthly4 L_SymmetryCase E_SmallOffice E_Monthly.
Import ListNotations.
Open Scope R_scope.

Definition darkJanuary : mweather xr :=
  mkMw (repeat (zn 5) 8 :: repeat [zn 20; zn 30; zn 60; zn 90; zn 120; zn 80; zn 50; zn 30] 11) (mw_mhdbt southSun) (mw_mhEgh southSun) (mw_mEgh southSun) (mw_mdbt southSun) (mw_mwind southSun).
Lemma C84_months_l : (forall m, (0 < m < 12)%nat -> same_month m southSun darkJanuary) /\ darkJanuary <> southSun /\
  (exists rows, simulateMonthly (map_params Fin (@monthlyOffice R _)) southSun = Ok rows) /\
  (exists rows, simulateMonthly (map_params Fin (@monthlyOffice R _)) darkJanuary = Ok rows).
Proof.
  destruct C82_months_l as (_ & _ & L & _ & X).
  split.
  { intros m M. destruct m as [|m]; [lia|]. repeat split. }
  split.
  { intros E. apply (f_equal (fun q => nth 0 (nth 0 (mw_msolar q) []) (Fin 0))) in E. change (@zn xr _ 5 = zn 20) in E. rewrite !zn_fin, !zn_R in E. injection E as E. lra. }
  split; [exact X|].
  apply C18_monthly_defined_l in X. destruct X as (A & B & C & D & E). apply C18_monthly_defined_l.
  split; [exact A|]. split; [|split; [exact C|split; [exact D|exact E]]].
  destruct B as (_ & B). split; [|exact B]. split; [reflexivity|]. intros row I. destruct I as [<-|I]; [reflexivity|]. apply repeat_spec in I. subst row. reflexivity.
Qed.
(** As [noon], but frost and storm. *)
Definition frost : weather xr := mkWeather (zn 12) (zn (-20)) (we_sol noon).
Lemma C84_hours_l : (forall n w w', nth_error noons n = Some w -> nth_error (repeat frost (Z.to_nat 8760)) n = Some w' -> we_sol w' = we_sol w) /\
  (exists rows r, simulate (@smallOffice xr _) noons no_ratios false = Ok (rows, r)) /\
  (exists rows r, simulate (@smallOffice xr _) (repeat frost (Z.to_nat 8760)) no_ratios false = Ok (rows, r)).
Proof.
  split.
  { intros n w w' E E'. apply nth_error_In, repeat_spec in E, E'. subst w w'. reflexivity. }
  split; [exact (proj2 (proj2 (proj2 (proj2 (proj2 C82_case_l)))) false)|].
  destruct (simulateRaw_ok (@smallOffice xr _) (repeat frost (Z.to_nat 8760)) no_ratios) as (raw & r & E).
  - exact office_ints.
  - reflexivity.
  - rewrite repeat_length. lia.
  - intros w I. apply repeat_spec in I. subst w. reflexivity.
  - destruct (simulate_both _ _ _ _ _ E) as (h & m & E1 & E2 & _). eexists; eexists; eassumption.
Qed.
