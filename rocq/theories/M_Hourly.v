(** Model of HourlyModel.{hpp,cpp}. *)
From Coq Require Import ZArith.
From Verif Require Import Base Num M_Params M_TimeFrame.
Open Scope num_scope.

Section Hourly.
Context {T : Type} {N : Num T}.

(** Reads of [v[i]] with i < 9 of a vector already known to have 9 entries.
    Functions using it are guarded by [nine], so the default is never reached. *)
Definition at9 (v : list T) (i : nat) : T := nth i v (zn 0).
Definition nine (v : list T) : bool := Nat.leb 9 (length v).

(** ** populateSchedules, HourlyModel.cpp 500-531 *)

(** One cell [h][d] of the seven fixed...Schedule arrays (HourlyModel.hpp 229-235). *)
Record sched := mkSched {
  sc_vent : T; sc_extEquip : T; sc_intEquip : T; sc_extLight : T; sc_intLight : T;
  sc_heatSP : T; sc_coolSP : T }.

(** HourlyModel.cpp 509-528, loop body for hour [h] and weekday [d]. *)
Definition sched_cell (p : params_t T) (dayStart dayEnd hourStart hourEnd : Z) (h d : Z) : sched :=
  let hocc := (Z.leb hourStart h && Z.leb h hourEnd)%bool in
  let docc := (Z.leb dayStart d && Z.leb d dayEnd)%bool in
  let pocc := (hocc && docc)%bool in
  {| sc_vent := if hocc then ve_supplyRate (pa_ventilation p) else zn 0;
     sc_extEquip := bu_externalEquipment (pa_building p);
     sc_intEquip := if pocc then bu_elecApplianceOcc (pa_building p) else bu_elecApplianceUnocc (pa_building p);
     sc_extLight := zn 1;
     sc_intLight := if pocc then li_densityOcc (pa_lighting p) else li_densityUnocc (pa_lighting p);
     sc_heatSP := if pocc then ht_tempOcc (pa_heating p) else ht_tempUnocc (pa_heating p);
     sc_coolSP := if pocc then cl_tempOcc (pa_cooling p) else cl_tempUnocc (pa_cooling p) |}.

Definition cast_int (x : T) : outcome Z := match ntrunc x with Some z => Ok z | None => UB end.

(** HourlyModel.cpp 500-531.  The result is the 24 x 7 table; casting an
    out-of-range double to int is undefined behaviour. *)
Definition populateSchedules (p : params_t T) : outcome (list (list sched)) :=
  let po := pa_population p in
  do dayStart <- cast_int (po_daysStart po);
  do dayEnd <- cast_int (po_daysEnd po);
  do hourStart <- cast_int (po_hoursStart po);
  do hourEnd <- cast_int (po_hoursEnd po);
  Ok (map (fun h => map (fun d => sched_cell p dayStart dayEnd hourStart hourEnd h d) (zrange 0 7)) (zrange 0 24)).

(** HourlyModel.hpp 116-148: schedule accessors, fixed[hourOfDay][scheduleOffset]. *)
Definition sched_at (tbl : list (list sched)) (hourOfDay dayOfWeek : Z) : outcome sched :=
  if (Z.ltb hourOfDay 0 || Z.ltb dayOfWeek 0)%bool then UB else
  do row <- vget tbl (Z.to_nat hourOfDay); vget row (Z.to_nat dayOfWeek).

(** ** initialize, HourlyModel.cpp 386-498 *)

(** The member vectors that initialize() extends with push_back and never clears
    (HourlyModel.hpp 180-186). They persist between calls of simulate(). *)
Record ratios := mkRatios {
  ra_nlaWMovableShading : list T;
  ra_naturalLightRatio : list T;
  ra_naturalLightShadeRatioReduction : list T;
  ra_saWMovableShading : list T;
  ra_solarRatio : list T;
  ra_solarShadeRatioReduction : list T }.

(** A newly constructed HourlyModel (HourlyModel.cpp 23): empty vectors. *)
Definition no_ratios : ratios :=
  {| ra_nlaWMovableShading := []; ra_naturalLightRatio := []; ra_naturalLightShadeRatioReduction := [];
     ra_saWMovableShading := []; ra_solarRatio := []; ra_solarShadeRatioReduction := [] |}.

(** HourlyModel.cpp 533-550, structureCalculations: values written to
    nlams, nla, sams, sa, htot, hWindow at index [direction]. *)
Record surf := mkSurf { su_nlams : T; su_nla : T; su_sams : T; su_sa : T; su_htot : T; su_hWindow : T }.
Definition structureCalculations (R_se SHGC wallAreaM2 windowAreaM2 wallUValue windowUValue
    wallSolarAbsorption solarFactorWith solarFactorWithout : T) : surf :=
  let WindowT := SHGC / lit 87 100 in
  {| su_nlams := windowAreaM2 * WindowT;
     su_nla := windowAreaM2 * WindowT;
     su_sams := wallAreaM2 * (wallSolarAbsorption * wallUValue * R_se) + windowAreaM2 * solarFactorWith;
     su_sa := wallAreaM2 * (wallSolarAbsorption * wallUValue * R_se) + windowAreaM2 * solarFactorWithout;
     su_htot := wallAreaM2 * wallUValue + windowAreaM2 * windowUValue;
     su_hWindow := windowAreaM2 * windowUValue |}.

(** HourlyModel.cpp 411-419: the call for surface [i].  The first argument is the
    window *shading device* vector, bound to the parameter named SHGC. *)
Definition surf_at (s : structure_t T) (i : nat) : surf :=
  structureCalculations (st_R_se s) (at9 (st_windowSDF s) i) (at9 (st_wallArea s) i)
    (at9 (st_windowArea s) i) (at9 (st_wallU s) i) (at9 (st_windowU s) i)
    (at9 (st_wallAbsorption s) i) (at9 (st_windowSCF s) i) (at9 (st_windowSHGC s) i).

(** HourlyModel.cpp 421-427: the push_backs for surface [i].  The differences on
    lines 423 and 427 read index [i], i.e. the oldest entries, not the ones
    just appended. *)
Definition push_ratios (s : structure_t T) (r : ratios) (i : nat) : ratios :=
  let su := surf_at s i in
  let A := st_floorArea s in
  let nlaW := ra_nlaWMovableShading r ++ [su_nlams su / A] in
  let nlr := ra_naturalLightRatio r ++ [su_nla su / A] in
  let saW := ra_saWMovableShading r ++ [su_sams su / A] in
  let sr := ra_solarRatio r ++ [su_sa su / A] in
  {| ra_nlaWMovableShading := nlaW;
     ra_naturalLightRatio := nlr;
     ra_naturalLightShadeRatioReduction :=
       ra_naturalLightShadeRatioReduction r ++ [at9 nlaW i - at9 nlr i];
     ra_saWMovableShading := saW;
     ra_solarRatio := sr;
     ra_solarShadeRatioReduction :=
       ra_solarShadeRatioReduction r ++ [at9 saW i - at9 sr i] |}.

(** The scalar members computed by initialize() (HourlyModel.hpp 159-216). *)
Record hinit := mkHinit {
  hi_maxRatio : T;             (* maxRatioElectricLighting *)
  hi_elightNatural : T;
  hi_areaNatRatio : T;         (* areaNaturallyLightedRatio *)
  hi_shadingUse : T;           (* shadingUsePerWPerM2 *)
  hi_q4Pa : T;
  hi_H_tris : T;
  hi_Cm : T;
  hi_Am : T;
  hi_hwin : T;                 (* hwindowWperkm2 *)
  hi_prsInterior : T;
  hi_prsSolar : T;
  hi_prmInterior : T;
  hi_prmSolar : T;
  hi_H_ms : T;
  hi_hem : T;
  hi_windImpactHz : T;
  hi_windImpactSupplyRatio : T;
  hi_ratios : ratios }.

(** HourlyModel.cpp 390-405: lighting control (maxRatioElectricLighting, elightNatural). *)
Definition lighting_control (b : building_t T) (l : lighting_t T) : T * T :=
  let occ := bu_lightingOccupancySensor b in
  let day := li_dimmingFraction l in
  if ((occ <? zn 1) && (day <? zn 1))%bool then (li_presenceAutoAd l, li_presenceAutoLux l)
  else if occ <? zn 1 then (li_presenceSensorAd l, li_presenceSensorLux l)
  else if day <? zn 1 then (li_automaticAd l, li_automaticLux l)
  else (li_manualSwitchAd l, li_manualSwitchLux l).

(** HourlyModel.cpp 453-463: effective mass area from the heat capacity. *)
Definition massArea (Cm : T) : T :=
  if Cm >? zn 370 then lit 35 10
  else if Cm >? zn 260 then lit 30 10 + lit 5 10 * ((Cm - zn 260) / zn 110)
  else if Cm >? zn 165 then lit 25 10 + lit 5 10 * ((Cm - zn 165) / zn 95)
  else lit 25 10.

(** All nine-surface vectors have at least 9 entries (otherwise [] reads are UB). *)
Definition structure_nine (s : structure_t T) : bool :=
  nine (st_windowSDF s) && nine (st_wallArea s) && nine (st_windowArea s) && nine (st_wallU s)
  && nine (st_windowU s) && nine (st_wallAbsorption s) && nine (st_windowSCF s) && nine (st_windowSHGC s).

(** HourlyModel.cpp 407-408. *)
Definition areaNatRatio (p : params_t T) : T :=
  nmax (lit 1 10000) (li_naturallyLightedArea (pa_lighting p)) / st_floorArea (pa_structure p).
(** HourlyModel.cpp 434-436. *)
Definition q4Pa_of (p : params_t T) : T :=
  let s := pa_structure p in
  let buildingv8 := lit 19 100 * (ve_n50 (pa_ventilation p) * (st_floorArea s * st_buildingHeight s)) in
  nmax (lit 1 1000000) (buildingv8 / st_floorArea s).
(** HourlyModel.cpp 439. *)
Definition h_ms_of (p : params_t T) : T :=
  ss_hci (pa_settings p) + ss_hri (pa_settings p) * lit 12 10.
(** HourlyModel.cpp 441-443. *)
Definition H_tris_of (p : params_t T) : T :=
  let h_is := zn 1 / (zn 1 / ss_hci (pa_settings p) - zn 1 / h_ms_of p) in
  h_is * st_totalAreaPerFloorArea (pa_structure p).
(** HourlyModel.cpp 447-450.  [sum] is the ublas sum of all entries (from 0). *)
Definition Cm_of (s : structure_t T) : T :=
  let Cm_int := st_interiorHeatCapacity s / zn 1000 in
  let Cm_env := (st_wallHeatCapacity s * accumulate (st_wallArea s) / st_floorArea s) / zn 1000 in
  Cm_int + Cm_env.
(** HourlyModel.cpp 465-472. *)
Definition hWind_of (s : structure_t T) : T :=
  fold_left (fun acc i => acc + su_hWindow (surf_at s i)) (seq 0 9) (zn 0).
Definition hWall_of (s : structure_t T) : T :=
  fold_left (fun acc i => acc + (su_htot (surf_at s i) - su_hWindow (surf_at s i))) (seq 0 9) (zn 0).
Definition hwin_of (s : structure_t T) : T := hWind_of s / st_floorArea s.
(** HourlyModel.cpp 491. *)
Definition hOpaque_of (s : structure_t T) : T := nmax (hWall_of s / st_floorArea s) (lit 1 1000000).
(** HourlyModel.cpp 489. *)
Definition H_ms_of (p : params_t T) : T := h_ms_of p * massArea (Cm_of (pa_structure p)).
(** HourlyModel.cpp 494. *)
Definition hem_of (p : params_t T) : T :=
  zn 1 / (zn 1 / hOpaque_of (pa_structure p) - zn 1 / H_ms_of p).

(** HourlyModel.cpp 386-498. *)
Definition initialize (p : params_t T) (r0 : ratios) : outcome hinit :=
  let s := pa_structure p in
  let ss := pa_settings p in
  if negb (structure_nine s) then UB else
  let ctl := lighting_control (pa_building p) (pa_lighting p) in
  let r := fold_left (push_ratios s) (seq 0 9) r0 in
  let Cm := Cm_of s in
  let Am := massArea Cm in
  let tapfa := st_totalAreaPerFloorArea s in
  let prs := (tapfa - Am - hwin_of s / h_ms_of p) / tapfa in
  let prm := Am / tapfa in
  Ok {| hi_maxRatio := fst ctl;
        hi_elightNatural := snd ctl;
        hi_areaNatRatio := areaNatRatio p;
        hi_shadingUse := st_shadingFactorAtMaxUse s / st_irradianceForMaxShadingUse s;
        hi_q4Pa := q4Pa_of p;
        hi_H_tris := H_tris_of p;
        hi_Cm := Cm;
        hi_Am := Am;
        hi_hwin := hwin_of s;
        hi_prsInterior := (zn 1 - ss_phiIntFraction ss) * prs;
        hi_prsSolar := (zn 1 - ss_phiSolFraction ss) * prs;
        hi_prmInterior := (zn 1 - ss_phiIntFraction ss) * prm;
        hi_prmSolar := (zn 1 - ss_phiSolFraction ss) * prm;
        hi_H_ms := H_ms_of p;
        hi_hem := hem_of p;
        hi_windImpactHz := nmax (lit 1 10) (ve_hzone (pa_ventilation p));
        hi_windImpactSupplyRatio := nmax (lit 1 100000) (ve_fanControlFactor (pa_ventilation p));
        hi_ratios := r |}.

(** ** calculateHour, HourlyModel.cpp 189-383 *)

(** HourlyModel.cpp 222-228. *)
Definition lightingLevel (s : structure_t T) (i : hinit) (sol : list T) : T :=
  accumulate (map (fun k =>
    zn 53 / hi_areaNatRatio i * at9 sol k
    * (at9 (ra_naturalLightRatio (hi_ratios i)) k
       + hi_shadingUse i * at9 (ra_naturalLightShadeRatioReduction (hi_ratios i)) k
         * nmin (st_irradianceForMaxShadingUse s) (at9 sol k))) (seq 0 9)).

(** HourlyModel.cpp 229-231: electricForTotalLightArea. *)
Definition electricForTotalLightArea (s : structure_t T) (i : hinit) (sol : list T) : T :=
  let elecNat := nmax (zn 0) (hi_maxRatio i * (zn 1 - lightingLevel s i sol / hi_elightNatural i)) in
  elecNat * hi_areaNatRatio i + (zn 1 - hi_areaNatRatio i) * hi_maxRatio i.

(** HourlyModel.cpp 249-256: qSolarHeatGain. *)
Definition qSolarHeatGain (s : structure_t T) (i : hinit) (sol : list T) : T :=
  accumulate (map (fun k =>
    at9 sol k * (at9 (ra_solarRatio (hi_ratios i)) k
      + at9 (ra_solarShadeRatioReduction (hi_ratios i)) k * hi_shadingUse i
        * nmin (at9 sol k) (st_irradianceForMaxShadingUse s))) (seq 0 9)).

(** Air flow quantities of one hour, HourlyModel.cpp 268-283. *)
Record flows := mkFlows {
  fl_qSupply : T; fl_qEnvelope : T; fl_qTotal : T; fl_tEntering : T }.
Definition airflow (v : ventilation_t T) (i : hinit) (vent windMps temperature tiHeatCool : T) : flows :=
  let qSupply := vent * hi_windImpactSupplyRatio i in
  let exhaustSupply := - (qSupply - vent) in
  let tAfterExchange := (zn 1 - ve_heatRecoveryEfficiency v) * temperature
                        + ve_heatRecoveryEfficiency v * zn 20 in
  let tSuppliedAir := nmax (ve_preheat v) tAfterExchange in
  let qWind := lit 769 10000 * hi_q4Pa i * npow (ve_dCp v * windMps * windMps) (lit 667 1000) in
  let qStack := lit 146 10000 * hi_q4Pa i
      * npow (lit 5 10 * hi_windImpactHz i * (nmax (lit 1 100000) (nabs (temperature - tiHeatCool)))) (lit 667 1000) in
  let qExfiltration := nmax (zn 0)
      (nmax qStack qWind - nabs exhaustSupply * (lit 5 10 * qStack + lit 667 1000 * qWind / (qStack + qWind))) in
  let qEnvelope := nmax (zn 0) exhaustSupply + qExfiltration in
  let qTotal := qEnvelope + qSupply in
  {| fl_qSupply := qSupply; fl_qEnvelope := qEnvelope; fl_qTotal := qTotal;
     fl_tEntering := (temperature * qEnvelope + tSuppliedAir * qSupply) / qTotal |}.

(** The coefficients of the RC network in one hour: HourlyModel.cpp 286-290, 301-306. *)
Record net := mkNet {
  ne_T : T;        (* outdoor temperature *)
  ne_tEnt : T;     (* tEnteringAndSupplied *)
  ne_hei : T; ne_h1 : T; ne_h2 : T; ne_h3 : T;
  ne_hwin : T; ne_H_tris : T; ne_H_ms : T; ne_hem : T; ne_Cm : T;
  ne_phis0 : T;    (* phisPhi0 *)
  ne_phim0 : T }.  (* phimPhi0 *)
Definition network (i : hinit) (f : flows) (temperature qSol phi_int : T) : net :=
  let hei := lit 34 100 * fl_qTotal f in
  let h1 := zn 1 / (zn 1 / hei + zn 1 / hi_H_tris i) in
  let h2 := h1 + hi_hwin i in
  {| ne_T := temperature; ne_tEnt := fl_tEntering f; ne_hei := hei; ne_h1 := h1; ne_h2 := h2;
     ne_h3 := zn 1 / (zn 1 / h2 + zn 1 / hi_H_ms i);
     ne_hwin := hi_hwin i; ne_H_tris := hi_H_tris i; ne_H_ms := hi_H_ms i; ne_hem := hi_hem i;
     ne_Cm := hi_Cm i;
     ne_phis0 := hi_prsSolar i * qSol + hi_prsInterior i * phi_int;
     ne_phim0 := hi_prmSolar i * qSol + hi_prmInterior i * phi_int |}.

(** phimTotal, HourlyModel.cpp 308-309 (phii10), 310-311 (phii), 368-369 (phiiHeatCool).
    The source writes this expression and the next three once for each of the
    three arguments; the copies are the same text up to the argument. *)
Definition phimTotal (n : net) (phii : T) : T :=
  ne_phim0 n + ne_hem n * ne_T n
  + ne_h3 n * (ne_phis0 n + ne_hwin n * ne_T n + ne_h1 n * (phii / ne_hei n + ne_tEnt n)) / ne_h2 n.
(** theta_m,t : HourlyModel.cpp 313, 320, 374. *)
Definition massTemp (n : net) (TMT1 phii : T) : T :=
  (TMT1 * (ne_Cm n / lit 36 10 - lit 5 10 * (ne_h3 n + ne_hem n)) + phimTotal n phii)
  / (ne_Cm n / lit 36 10 + lit 5 10 * (ne_h3 n + ne_hem n)).
(** theta_s : HourlyModel.cpp 314-316, 321-322, 376-379. *)
Definition surfTemp (n : net) (TMT1 phii : T) : T :=
  let tm := lit 5 10 * (TMT1 + massTemp n TMT1 phii) in
  (ne_H_ms n * tm + ne_phis0 n + ne_hwin n * ne_T n + ne_h1 n * (ne_tEnt n + phii / ne_hei n))
  / (ne_H_ms n + ne_hwin n + ne_h1 n).
(** theta_air : HourlyModel.cpp 318, 323, 381. *)
Definition airTemp (n : net) (TMT1 phii : T) : T :=
  (ne_H_tris n * surfTemp n TMT1 phii + ne_hei n * ne_tEnt n + phii) / (ne_H_tris n + ne_hei n).

(** HourlyModel.cpp 324-326: plant power (positive heats, negative cools). *)
Definition plantPower (n : net) (TMT1 phii heatSP coolSP : T) : T :=
  let ti0 := airTemp n TMT1 phii in
  let ti10 := airTemp n TMT1 (phii + zn 10) in
  let phiCooling := zn 10 * (coolSP - ti0) / (ti10 - ti0) in
  let phiHeating := zn 10 * (heatSP - ti0) / (ti10 - ti0) in
  nmax (zn 0) phiHeating + nmin phiCooling (zn 0).

(** HourlyModel.cpp 331-341: fan energy; [tiHeatCool] is still the previous hour's value. *)
Definition fanEnergy (p : params_t T) (vent tiHeatCool Qneed_ht Qneed_cl : T) : T :=
  let h := pa_heating p in let c := pa_cooling p in
  let T_sup_ht := ht_tempOcc h + ht_dT_supp h in
  let T_sup_cl := cl_tempOcc c - cl_dT_supp c in
  let Vair_ht := if ht_forcedAir h
    then Qneed_ht / (((T_sup_ht - tiHeatCool) * ph_rhoCpAir (pa_phys p) * lit 277777778 1000000) + ndblmin)
    else zn 0 in
  let Vair_cl := if cl_forcedAir c
    then Qneed_cl / (((tiHeatCool - T_sup_cl) * ph_rhoCpAir (pa_phys p) * lit 277777778 1000000) + ndblmin)
    else zn 0 in
  let Vair_tot := nmax (Vair_ht + Vair_cl) vent in
  Vair_tot * ve_fanPower (pa_ventilation p) * zn 1000 / zn 3600.

(** HourlyModel.cpp 346-352. *)
Definition pumpEnergy (p : params_t T) (Qneed_ht Qneed_cl : T) : T :=
  if Qneed_cl >? zn 0 then cl_E_pumps (pa_cooling p) * cl_pumpControlReduction (pa_cooling p)
  else if Qneed_ht >? zn 0 then ht_E_pumps (pa_heating p) * ht_pumpControlReduction (pa_heating p)
  else zn 0.

(** HourlyModel.cpp 354-359. *)
Definition exteriorLighting (p : params_t T) (extLight : T) (sol : list T) : T :=
  if at9 sol 8 >? zn 0 then zn 0
  else li_exteriorEnergy (pa_lighting p) * extLight / st_floorArea (pa_structure p).

(** HourResults<double>, HourlyModel.hpp 40-52. *)
Record hourres := mkHourres {
  hr_Qneed_ht : T; hr_Qneed_cl : T; hr_illum : T; hr_illum_ext : T; hr_fan : T; hr_pump : T;
  hr_plug : T; hr_extEquip : T; hr_dhw : T }.

(** TMT1 and tiHeatCool, passed by reference from hour to hour. *)
Record thermal := mkThermal { th_TMT1 : T; th_ti : T }.

(** Weather of one hour: wind[i], temp[i], radiation[i] (9 entries, 8 surfaces + EGH). *)
Record weather := mkWeather { we_wind : T; we_temp : T; we_sol : list T }.

(** HourlyModel.cpp 208. *)
Definition ventFlow (p : params_t T) (sc : sched) : T :=
  sc_vent sc * lit 36 10 / st_floorArea (pa_structure p).
(** HourlyModel.cpp 236, 240, 244. *)
Definition phiInt (p : params_t T) (i : hinit) (sc : sched) (w : weather) : T :=
  sc_intEquip sc
  + electricForTotalLightArea (pa_structure p) i (we_sol w) * sc_intLight sc * li_elecInternalGains (pa_lighting p).
(** HourlyModel.cpp 259. *)
Definition phiAir (p : params_t T) (i : hinit) (sc : sched) (w : weather) : T :=
  ss_phiSolFraction (pa_settings p) * qSolarHeatGain (pa_structure p) i (we_sol w)
  + ss_phiIntFraction (pa_settings p) * phiInt p i sc w.
(** The network of the hour (lines 267-306). *)
Definition hourNet (p : params_t T) (i : hinit) (sc : sched) (w : weather) (th : thermal) : net :=
  network i (airflow (pa_ventilation p) i (ventFlow p sc) (we_wind w) (we_temp w) (th_ti th))
    (we_temp w) (qSolarHeatGain (pa_structure p) i (we_sol w)) (phiInt p i sc w).

(** HourlyModel.cpp 189-383, after the schedule lookups of 208-214. *)
Definition calculateHour (p : params_t T) (i : hinit) (sc : sched) (w : weather) (th : thermal)
  : hourres * thermal :=
  let n := hourNet p i sc w th in
  let phii := phiAir p i sc w in
  let phiActual := plantPower n (th_TMT1 th) phii (sc_heatSP sc) (sc_coolSP sc) in
  let Qneed_cl := nmax (zn 0) (- phiActual) in
  let Qneed_ht := nmax (zn 0) phiActual in
  let phiiHeatCool := phiActual + phii in
  ({| hr_Qneed_ht := Qneed_ht;
      hr_Qneed_cl := Qneed_cl;
      hr_illum := electricForTotalLightArea (pa_structure p) i (we_sol w) * sc_intLight sc;
      hr_illum_ext := exteriorLighting p (sc_extLight sc) (we_sol w);
      hr_fan := fanEnergy p (ventFlow p sc) (th_ti th) Qneed_ht Qneed_cl;
      hr_pump := pumpEnergy p Qneed_ht Qneed_cl;
      hr_plug := sc_intEquip sc;
      hr_extEquip := sc_extEquip sc / st_floorArea (pa_structure p);
      hr_dhw := zn 0 |},
   {| th_TMT1 := massTemp n (th_TMT1 th) phiiHeatCool;
      th_ti := airTemp n (th_TMT1 th) phiiHeatCool |}).

(** ** simulate, HourlyModel.cpp 26-187 *)

(** HourlyModel.cpp 57-82: the year loop.  [frame] is the calendar, [ws] the weather
    rows; the radiation row must have 9 entries (at9 reads). *)
Fixpoint yearLoop (p : params_t T) (i : hinit) (tbl : list (list sched))
    (frame : list (option tcell)) (ws : list weather) (th : thermal) : outcome (list hourres) :=
  match frame with
  | [] => Ok []
  | None :: _ => UB
  | Some c :: frame' =>
    match ws with
    | [] => UB                                   (* wind[i], temp[i] past the end *)
    | w :: ws' =>
      if negb (nine (we_sol w)) then UB else
      do sc <- sched_at tbl (tc_hour c) (tc_dow c);
      let (r, th') := calculateHour p i sc w th in
      do rs <- yearLoop p i tbl frame' ws' th';
      Ok (r :: rs)
    end
  end.

(** HourlyModel.cpp 85-104: the yearly distribution factors
    (eta_dist_ht, eta_dist_cl). *)
Definition f_dem_ht (Qht Qcl : T) : T := nmax (Qht / (Qcl + Qht)) (lit 1 10).
Definition f_dem_cl (Qht Qcl : T) : T := nmax (zn 1 - f_dem_ht Qht Qcl) (lit 1 10).
Definition eta_dist_ht (p : params_t T) (Qht Qcl : T) : T :=
  zn 1 / (zn 1 + ht_hvacLossFactor (pa_heating p) + ht_hotcoldWasteFactor (pa_heating p) / f_dem_ht Qht Qcl).
Definition eta_dist_cl (p : params_t T) (Qht Qcl : T) : T :=
  zn 1 / (zn 1 + cl_hvacLossFactor (pa_cooling p) + ht_hotcoldWasteFactor (pa_heating p) / f_dem_cl Qht Qcl).

(** HourlyModel.cpp 91-139: the thirteen hourly result vectors in kWh/m2, in slot order. *)
Definition resultVectors (p : params_t T) (raw : list hourres) : list (list T) :=
  let Qht := accumulate (map hr_Qneed_ht raw) in
  let Qcl := accumulate (map hr_Qneed_cl raw) in
  let eta_ht := eta_dist_ht p Qht Qcl in
  let eta_cl := eta_dist_cl p Qht Qcl in
  let v_Qht_sys := map (fun need => need / eta_ht / ht_efficiency (pa_heating p)) (map hr_Qneed_ht raw) in
  let v_Qcl_sys := map (fun need => need / eta_cl / cl_cop (pa_cooling p)) (map hr_Qneed_cl raw) in
  let zeroes := map (fun _ => zn 0) raw in
  let electric := ht_energyType (pa_heating p) =? zn 1 in
  map (map (fun watts => watts / zn 1000))
    [ if electric then v_Qht_sys else zeroes;        (* Eelec_ht *)
      v_Qcl_sys;                                     (* Eelec_cl *)
      map hr_illum raw;                              (* Eelec_int_lt *)
      map hr_illum_ext raw;                          (* Eelec_ext_lt *)
      map hr_fan raw;                                (* Eelec_fan *)
      map hr_pump raw;                               (* Eelec_pump *)
      map hr_plug raw;                               (* Eelec_int_plug *)
      map hr_extEquip raw;                           (* Eelec_ext_plug *)
      map hr_dhw raw;                                (* Eelec_dhw *)
      if electric then zeroes else v_Qht_sys;        (* Egas_ht *)
      zeroes;                                        (* Egas_cl *)
      zeroes;                                        (* Egas_plug *)
      zeroes ].                                      (* Egas_dhw *)

(** HourlyModel.cpp 575. *)
Definition monthsInHours : list Z :=
  [0; 744; 1416; 2160; 2880; 3624; 4344; 5088; 5832; 6552; 7296; 8016; 8760]%Z.

(** std::accumulate(begin + a, begin + b, 0.0): undefined behaviour past the end. *)
Definition sumRange (l : list T) (a b : Z) : outcome T :=
  if Z.ltb (Z.of_nat (length l)) b then UB
  else Ok (accumulate (firstn (Z.to_nat (b - a)) (skipn (Z.to_nat a) l))).

(** HourlyModel.cpp 572-584. *)
Definition sumHoursByMonth (hourlyData : list T) : outcome (list T) :=
  omap (fun month =>
    do a <- vget monthsInHours month;
    do b <- vget monthsInHours (S month);
    sumRange hourlyData a b) (seq 0 12).

(** HourlyModel.cpp 148-186: [n] rows, row i takes entry i of every vector.  A row is
    the thirteen end uses of one time step, in EndUses slot order (lines 154-167). *)
Definition assembleRows (n : Z) (vs : list (list T)) : outcome (list (list T)) :=
  omap (fun i => omap (fun v => vget v i) vs) (seq 0 (Z.to_nat n)).

(** HourlyModel.cpp 141-186. *)
Definition finish (aggregateByMonth : bool) (vs : list (list T)) : outcome (list (list T)) :=
  if aggregateByMonth
  then do ms <- omap sumHoursByMonth vs; assembleRows 12 ms
  else assembleRows 8760 vs.

(** HourlyModel.cpp 40-41. *)
Definition thermal0 : thermal := {| th_TMT1 := zn 20; th_ti := zn 20 |}.

(** HourlyModel.cpp 26-82 on a model object whose ratio vectors are [r0]:
    the raw results and the ratio vectors left behind. *)
Definition simulateRaw (p : params_t T) (ws : list weather) (r0 : ratios)
  : outcome (list hourres * ratios) :=
  do tbl <- populateSchedules p;
  do i <- initialize p r0;
  do frame <- timeFrame;
  do raw <- yearLoop p i tbl frame ws thermal0;
  Ok (raw, hi_ratios i).

(** HourlyModel.cpp 26-187. *)
Definition simulate (p : params_t T) (ws : list weather) (r0 : ratios) (aggregateByMonth : bool)
  : outcome (list (list T) * ratios) :=
  do (raw, r) <- simulateRaw p ws r0;
  do rows <- finish aggregateByMonth (resultVectors p raw);
  Ok (rows, r).

End Hourly.
Arguments sched : clear implicits.
Arguments ratios : clear implicits.
Arguments hinit : clear implicits.
Arguments flows : clear implicits.
Arguments net : clear implicits.
Arguments hourres : clear implicits.
Arguments thermal : clear implicits.
Arguments weather : clear implicits.
Arguments surf : clear implicits.
