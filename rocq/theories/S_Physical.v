(** What a physically meaningful building is, for the hourly engine.
    These are exactly the preconditions the theorems about finite numbers use. *)
From Coq Require Import Reals List.
From Verif Require Import M_Params.
Import ListNotations.
Open Scope R_scope.

Definition Rsum (l : list R) : R := fold_right Rplus 0 l.
(** Sum of products of two vectors, e.g. sum of area times U value. *)
Definition dot (a b : list R) : R := Rsum (map (fun p => fst p * snd p) (combine a b)).
Definition all_nonneg (l : list R) : Prop := forall x, In x l -> 0 <= x.

Record physical (p : params_t R) : Prop := {
  phy_area : 0 < st_floorArea (pa_structure p);
  phy_wallArea9 : length (st_wallArea (pa_structure p)) = 9%nat;
  phy_windowArea9 : length (st_windowArea (pa_structure p)) = 9%nat;
  phy_wallU9 : length (st_wallU (pa_structure p)) = 9%nat;
  phy_windowU9 : length (st_windowU (pa_structure p)) = 9%nat;
  phy_abs9 : length (st_wallAbsorption (pa_structure p)) = 9%nat;
  phy_sdf9 : length (st_windowSDF (pa_structure p)) = 9%nat;
  phy_shgc9 : length (st_windowSHGC (pa_structure p)) = 9%nat;
  phy_scf9 : length (st_windowSCF (pa_structure p)) = 9%nat;
  phy_wallArea : all_nonneg (st_wallArea (pa_structure p));
  phy_wallU : all_nonneg (st_wallU (pa_structure p));
  phy_windowArea : all_nonneg (st_windowArea (pa_structure p));
  phy_windowU : all_nonneg (st_windowU (pa_structure p));
  phy_Ci : 0 <= st_interiorHeatCapacity (pa_structure p);
  phy_Cw : 0 <= st_wallHeatCapacity (pa_structure p);
  phy_tapfa : 0 < st_totalAreaPerFloorArea (pa_structure p);
  phy_irr : 0 < st_irradianceForMaxShadingUse (pa_structure p);
  phy_hci : 0 < ss_hci (pa_settings p);
  phy_hri : 0 < ss_hri (pa_settings p);
  (** The opaque envelope must conduct less than the mass-to-surface coupling at the
      smallest effective mass area (2.5); otherwise the code's exterior mass
      conductance 1/(1/H_op - 1/H_ms) is infinite or negative. *)
  phy_coupling : Rmax (dot (st_wallArea (pa_structure p)) (st_wallU (pa_structure p)) / st_floorArea (pa_structure p)) (1 / 1000000)
                 < 2.5 * (ss_hci (pa_settings p) + 1.2 * ss_hri (pa_settings p));
  phy_lux1 : 0 < li_presenceAutoLux (pa_lighting p);
  phy_lux2 : 0 < li_presenceSensorLux (pa_lighting p);
  phy_lux3 : 0 < li_automaticLux (pa_lighting p);
  phy_lux4 : 0 < li_manualSwitchLux (pa_lighting p);
  phy_dCp : 0 <= ve_dCp (pa_ventilation p);
  phy_supply : 0 <= ve_supplyRate (pa_ventilation p) }.
