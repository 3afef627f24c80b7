(** The office without loads meets the conditions of C78 and C79. *)
From Coq Require Import Reals Lra ZArith List Lia.
From Verif Require Import Base Num Xr M_Params M_Hourly M_Map E_SmallOffice S_RC S_Physical S_Network S_Year S_HourSpec S_Balance S_Edit.
From Verif Require Import L_HourlyThm4 L_HourlyShape L_Office L_Office2 L_HourlyBalance.
Import ListNotations.
Open Scope R_scope.

Lemma C79_case_l : physical still_office /\ mass_slow still_office /\ recovery_ok still_office /\ no_sources still_office /\
  sources_ok still_office /\ daylit still_office /\ band_contains still_office 20 /\ ve_preheat (pa_ventilation still_office) <= 20 /\
  timetable_of still_office office_hours /\ ordered_setpoints still_office /\
  forall t, exists raw r, simulateRaw (map_params Fin still_office) (map (map_weather Fin) (constant_year 8760 t)) no_ratios = Ok (raw, r).
Proof.
  split; [exact still_physical|]. split; [exact office_slow|]. split; [unfold recovery_ok; onum; lra|].
  split; [unfold no_sources; onum; auto|]. split.
  - assert (F : sp_mass_area (sp_capacity still_office) + sp_windows still_office / sp_h_ms still_office <= st_totalAreaPerFloorArea (pa_structure still_office)); [|constructor; [onum; first [lra|nn] ..|exact F]].
    assert (E1 : sp_mass_area (sp_capacity still_office) <= 3.5).
    { unfold sp_mass_area, clamp.
      assert (H : forall x, Rmax 0 (Rmin 1 x) <= 1) by (intros x; apply Rmax_lub; [lra|apply Rmin_l]).
      pose proof (H ((sp_capacity still_office - 165) / 95)). pose proof (H ((sp_capacity still_office - 260) / 110)). lra. }
    assert (E2 : sp_windows still_office / sp_h_ms still_office <= 0.5).
    { unfold sp_windows, sp_h_ms, dot. unfold Rsum. onum. lra. }
    apply Rle_trans with 4; [lra|onum; lra].
  - split; [constructor; onum; try lra; nn|]. split; [unfold band_contains; onum; lra|]. split; [onum; lra|].
    split; [exact still_timetable|]. split; [exact still_ordered|].
    intros t. rewrite map_constant_year. apply simulateRaw_ok.
    + apply office_ints.
    + reflexivity.
    + rewrite constant_year_length; lia.
    + apply constant_year_nine.
Qed.
