(** Model of MonthlyModel.cpp. *)
From Coq Require Import ZArith.
From Verif Require Import Base Num M_Params.
Open Scope num_scope.

Section Monthly.
Context {T : Type} {N : Num T}.

(** ** Vectors, MonthlyModel.cpp 60-268.  The operations on two vectors read both at every index of
    the first.  [simulateMonthly] checks the sizes of everything that comes from outside, so both
    always have the same length; [zipw] stops at the end of the shorter one, which never happens. *)
Fixpoint zipw {A B C} (f : A -> B -> C) (a : list A) (b : list B) : list C :=
  match a, b with x :: a', y :: b' => f x y :: zipw f a' b' | _, _ => [] end.
Definition vmul : list T -> list T -> list T := zipw nmul.
Definition vadd : list T -> list T -> list T := zipw nadd.
Definition vsub : list T -> list T -> list T := zipw nsub.
Definition vmax : list T -> list T -> list T := zipw nmax.
(** mult(vector, scalar) and mult(array, scalar, 12); sum and dif with a scalar. *)
Definition scale (v : list T) (s : T) : list T := map (fun x => x * s) v.
Definition shift (v : list T) (s : T) : list T := map (fun x => x + s) v.
(** div: a zero divisor gives DBL_MAX (MonthlyModel.cpp 128-162). *)
Definition sdiv (a b : T) : T := if b =? zn 0 then ndblmax else a / b.
Definition divs (v : list T) (s : T) : list T := map (fun x => sdiv x s) v.
Definition vdiv : list T -> list T -> list T := zipw sdiv.
(** sum(vector), MonthlyModel.cpp 171-178. *)
Definition vsum (v : list T) : T := accumulate v.

(** ** Constants, MonthlyModel.cpp 272-287.  3.6f is the float nearest to 3.6. *)
Definition daysInMonth : list T := map zn [31; 28; 31; 30; 31; 30; 31; 31; 30; 31; 30; 31]%Z.
Definition hoursInMonth : list T := map zn [744; 672; 744; 720; 744; 720; 744; 744; 720; 744; 720; 744]%Z.
Definition megasecondsInMonth : list T :=
  map (fun n => lit n 10000) [26784; 24192; 26784; 25920; 26784; 25920; 26784; 26784; 25920; 26784; 25920; 26784]%Z.
Definition monthFractionOfYear : list T :=
  map (fun n => lit n 10000000000000000)
      [849315068493151; 767123287671233; 849315068493151; 821917808219178; 849315068493151; 821917808219178; 849315068493151;
       849315068493151; 821917808219178; 849315068493151; 821917808219178; 849315068493151]%Z.
Definition daysInYear : T := zn 365.
Definition hoursInYear : T := zn 8760.
Definition hoursInWeek : T := zn 168.
Definition kWh2MJ : T := lit 7549747 2097152.
(** A local Vector(12) with every element set to one value. *)
Definition all12 (x : T) : list T := repeat x 12.

(** ** scheduleAndOccupancy, MonthlyModel.cpp 295-343 *)
Record occupancy := mkOcc {
  oc_wkOcc : list T;               (* weekdayOccupiedMegaseconds *)
  oc_wkUnocc : list T;
  oc_weOcc : list T;               (* weekendOccupiedMegaseconds *)
  oc_weUnocc : list T;
  oc_clockOcc : list T;            (* clockHourOccupied *)
  oc_clockUnocc : list T;
  oc_wk_day : T;                   (* frac_hrs_wk_day *)
  oc_hoursUnocc : T;               (* hoursUnoccupiedPerDay *)
  oc_hoursOcc : T;
  oc_wk_nt : T;                    (* frac_hrs_wk_nt *)
  oc_wke_tot : T }.                (* frac_hrs_wke_tot *)
(** 299-302: hours of an occupied day. *)
Definition hoursPerDay (po : population_t T) : T :=
  let h := po_hoursEnd po - po_hoursStart po in if h <? zn 0 then h + zn 24 else h.
(** 303-306 and 458-461. *)
Definition daysPerWeek (po : population_t T) : T :=
  let d := po_daysEnd po - po_daysStart po + zn 1 in if d <? zn 0 then d + zn 7 else d.
(** 334-342: the masks start at hour 7 whatever hoursStart is. *)
Definition clockMask (hours : T) (yes no : T) : list T :=
  map (fun h => if (nle (zn 0) (zn h - zn 7) && (zn h - zn 7 <? hours))%bool then yes else no) (zrange 0 24).
Definition scheduleAndOccupancy (po : population_t T) : occupancy :=
  let h := hoursPerDay po in
  let d := daysPerWeek po in
  let hoursOccupiedDuringWeek := h * d in
  let wk_day := hoursOccupiedDuringWeek / hoursInWeek in
  let hoursUnocc := zn 24 - h in
  let hoursUnoccupiedDuringWeek := (d - zn 1) * hoursUnocc in
  let wk_nt := hoursUnoccupiedDuringWeek / hoursInWeek in
  let totalWeekendHours := hoursInWeek - hoursOccupiedDuringWeek - hoursUnoccupiedDuringWeek in
  let wke_tot := totalWeekendHours / hoursInWeek in
  let weekendHoursOccupied := (zn 7 - d) * h in
  let wke_day := weekendHoursOccupied / hoursInWeek in
  let weekendHoursUnoccupied := totalWeekendHours - weekendHoursOccupied in
  let wke_nt := weekendHoursUnoccupied / hoursInWeek in
  {| oc_wkOcc := scale megasecondsInMonth wk_day;
     oc_wkUnocc := scale megasecondsInMonth wk_nt;
     oc_weOcc := scale megasecondsInMonth wke_day;
     oc_weUnocc := scale megasecondsInMonth wke_nt;
     oc_clockOcc := clockMask h (zn 1) (zn 0);
     oc_clockUnocc := clockMask h (zn 0) (zn 1);
     oc_wk_day := wk_day;
     oc_hoursUnocc := hoursUnocc;
     oc_hoursOcc := h;
     oc_wk_nt := wk_nt;
     oc_wke_tot := wke_tot |}.

(** ** The weather tables read (WeatherData.hpp 100-106), every element assigned. *)
Record mweather := mkMw {
  mw_msolar : list (list T);       (* 12 x 8 *)
  mw_mhdbt : list (list T);        (* 12 x 24 *)
  mw_mhEgh : list (list T);        (* 12 x 24 *)
  mw_mEgh : list T;
  mw_mdbt : list T;
  mw_mwind : list T }.

(** ** solarRadiationBreakdown, MonthlyModel.cpp 349-430 *)
(** ublas prod(matrix, vector): each row, products added up from 0. *)
Definition rowProd (row v : list T) : T := accumulate (vmul row v).
(** 361-374: the product divided by the number of hours, a plain division. *)
Definition maskedMean (m : list (list T)) (mask : list T) : list T :=
  map (fun row => rowProd row mask / vsum mask) m.
(** 404-418: index of the first hour with radiation, and of the last. *)
Fixpoint firstLit (i : nat) (row : list T) : option nat :=
  match row with
  | [] => None
  | x :: t => if negb (x =? zn 0) then Some i else firstLit (S i) t
  end.
Fixpoint lastLit (i : nat) (row : list T) : option nat :=
  match row with
  | [] => None
  | x :: t => match lastLit (S i) t with
              | Some j => Some j
              | None => if negb (x =? zn 0) then Some i else None
              end
  end.
(** 420-423 for one month: when no hour has radiation both times are read uninitialised. *)
Definition fracSunDown (row : list T) : outcome T :=
  match firstLit 0 row, lastLit 0 row with
  | Some up, Some down => Ok (zn 1 - (zn (Z.of_nat down) - zn (Z.of_nat up) + zn 1) / zn 24)
  | _, _ => UB
  end.
Record breakdown := mkBd {
  bd_hrsSunDown : list T;          (* v_hrs_sun_down_mo *)
  bd_wk_nt : list T;               (* frac_Pgh_wk_nt *)
  bd_wke_day : list T;
  bd_wke_nt : list T;
  bd_Tnt : list T;                 (* v_Tdbt_nt *)
  bd_Tday : list T }.
Definition solarRadiationBreakdown (oc : occupancy) (w : mweather) : outcome breakdown :=
  let Tday := maskedMean (mw_mhdbt w) (oc_clockOcc oc) in
  let Tnt := maskedMean (mw_mhdbt w) (oc_clockUnocc oc) in
  let Eday := maskedMean (mw_mhEgh w) (oc_clockOcc oc) in
  let Ent := maskedMean (mw_mhEgh w) (oc_clockUnocc oc) in
  let Wwk_day := vmul Eday (oc_wkOcc oc) in
  let Wwk_nt := vmul Ent (oc_wkUnocc oc) in
  let Wwke_day := vmul Eday (oc_weOcc oc) in
  let Wwke_nt := vmul Ent (oc_weUnocc oc) in
  let Wtot := vadd (vadd Wwk_day Wwk_nt) (vadd Wwke_day Wwke_nt) in
  do down <- omap fracSunDown (mw_mhEgh w);
  Ok {| bd_hrsSunDown := vmul down hoursInMonth;
        bd_wk_nt := vdiv Wwk_nt Wtot;
        bd_wke_day := vdiv Wwke_day Wtot;
        bd_wke_nt := vdiv Wwke_nt Wtot;
        bd_Tnt := Tnt;
        bd_Tday := Tday |}.

(** ** lightingEnergyUse, MonthlyModel.cpp 435-482 *)
Record lightuse := mkLu {
  lu_occ : T;                      (* Q_illum_occ *)
  lu_unocc : T;
  lu_tot : T;                      (* Q_illum_tot_yr *)
  lu_month : list T;               (* v_Q_illum_tot *)
  lu_ext : list T }.               (* v_Q_illum_ext_tot *)
(** 453-462. *)
Definition lightDayHours (li : lighting_t T) (po : population_t T) : T :=
  let h := nmin (li_n_day_end li) (po_hoursEnd po) - nmax (po_hoursStart po) (li_n_day_start li) in
  (if h <? zn 0 then h + zn 24 else h) * daysPerWeek po * li_n_weeks li.
(** 464-466. *)
Definition lightNightHours (li : lighting_t T) (po : population_t T) : T :=
  (nmax (li_n_day_start li - po_hoursStart po) (zn 0) + nmax (po_hoursEnd po - li_n_day_end li) (zn 0)) * daysPerWeek po * li_n_weeks li.
Definition lightingEnergyUse (p : params_t T) (hrsSunDown : list T) : lightuse :=
  let li := pa_lighting p in
  let A := st_floorArea (pa_structure p) in
  let t_lt_D := lightDayHours li (pa_population p) in
  let t_lt_N := lightNightHours li (pa_population p) in
  let t_unocc := hoursInYear - t_lt_D - t_lt_N in
  let occ := A * li_densityOcc li * bu_constantIllumination (pa_building p) * bu_lightingOccupancySensor (pa_building p)
             * (t_lt_D * li_dimmingFraction li + t_lt_N) / zn 1000 in
  let unocc := A * li_densityUnocc li * t_unocc / zn 1000 in
  let tot := occ + unocc in
  {| lu_occ := occ;
     lu_unocc := unocc;
     lu_tot := tot;
     lu_month := scale monthFractionOfYear tot;
     lu_ext := scale hrsSunDown (li_exteriorEnergy li / zn 1000) |}.

(** ** envelopCalculations, MonthlyModel.cpp 487-515: H_tr *)
Definition envelopeUA (s : structure_t T) : T :=
  vsum (vadd (vmul (st_wallArea s) (st_wallU s)) (vmul (st_windowArea s) (st_windowU s))) + zn 0 + zn 0 + zn 0.

(** ** windowSolarGain, MonthlyModel.cpp 520-579 *)
(** 541-550: reading the table with 3 entries outside it is undefined, and so is the cast of a
    number too large for int. *)
Definition sdfFactor (x : T) : outcome T :=
  match ntrunc x with
  | Some 1%Z => Ok (lit 5 10)
  | Some 2%Z => Ok (lit 35 100)
  | Some 3%Z => Ok (zn 1)
  | _ => UB
  end.
(** v_win_A_sol, 545-562. *)
Definition windowSolarArea (s : structure_t T) : outcome (list T) :=
  do sdf <- omap sdfFactor (st_windowSDF s);
  Ok (vmul (vmul (vmul (vmul sdf (repeat (zn 1) 9)) (scale (st_windowSHGC s) (st_win_F_W s))) (repeat (zn 1 - st_win_ff s) 9)) (st_windowArea s)).
(** v_wall_A_sol, 578. *)
Definition wallSolarArea (s : structure_t T) : list T :=
  vmul (vmul (vmul (st_wallAbsorption s) (repeat (st_R_sc_ext s) 9)) (st_wallU s)) (st_wallArea s).

(** ** solarHeatGain, MonthlyModel.cpp 584-671: v_E_sol *)
Definition formFactors : list T := repeat (lit 5 10) 8 ++ [zn 1].
(** 576 and 637-648: thermal radiation to the sky, 11 K. *)
Definition skyRadiation (s : structure_t T) : list T :=
  vmul (vmul (vmul (vmul (repeat (st_R_sc_ext s) 9) (st_wallU s)) (st_wallArea s)) (scale (st_wallEmissivity s) (zn 5))) (repeat (zn 11) 9).
(** 608-615: eight directions and the roof for one month. *)
Definition irradiance (w : mweather) : list (list T) := zipw (fun row egh => row ++ [egh]) (mw_msolar w) (mw_mEgh w).
Definition windowGain (s : structure_t T) (winSol isol : list T) : T :=
  vsum (vmul (vmul (vmul (st_windowSCF s) (repeat (zn 1) 9)) winSol) isol).
Definition wallGain (s : structure_t T) (isol : list T) : T :=
  vsum (vsub (vmul (wallSolarArea s) isol) (vmul (skyRadiation s) formFactors)).
Definition solarHeatGain (s : structure_t T) (winSol : list T) (w : mweather) : list T :=
  vmul (vadd (map (windowGain s winSol) (irradiance w)) (map (wallGain s) (irradiance w))) megasecondsInMonth.

(** ** heatGainsAndLosses, MonthlyModel.cpp 676-706, and internalHeatGain, 711-724.
    phi_illum_occ (690), which divides by frac_hrs_wk_day, is computed and never used; it is left out. *)
Record gains := mkGains {
  ga_int : T;                      (* phi_int_avg *)
  ga_plug : T;
  ga_illum : T;
  ga_unocc : T }.                  (* phi_int_wk_nt, phi_int_wke_day and phi_int_wke_nt are the same sum *)
Definition heatGainsAndLosses (p : params_t T) (wk_day : T) (lu : lightuse) : gains :=
  let po := pa_population p in
  let bu := pa_building p in
  let A := st_floorArea (pa_structure p) in
  let int_occ := po_heatGainPerPerson po / po_densityOcc po in
  let int_unocc := po_heatGainPerPerson po / po_densityUnocc po in
  let plug_occ := bu_elecApplianceOcc bu + bu_gasApplianceOcc bu in
  let plug_unocc := bu_elecApplianceUnocc bu + bu_gasApplianceUnocc bu in
  let illum_unocc := lu_unocc lu / A / hoursInYear / (zn 1 - wk_day) * zn 1000 in
  {| ga_int := wk_day * int_occ + (zn 1 - wk_day) * int_unocc;
     ga_plug := plug_occ * wk_day + plug_unocc * (zn 1 - wk_day);
     ga_illum := lu_tot lu / A / hoursInYear * zn 1000;
     ga_unocc := int_unocc + plug_unocc + illum_unocc |}.
Definition internalHeatGain (s : structure_t T) (g : gains) : T :=
  ga_int g * st_floorArea s + ga_plug g * st_floorArea s + ga_illum g * st_floorArea s.

(** ** unoccupiedHeatGain, MonthlyModel.cpp 729-754, for one of the three periods *)
Definition unoccupiedHeatGain (s : structure_t T) (phi : T) (ms frac Esol : list T) : list T :=
  vdiv (vadd (scale ms (phi * st_floorArea s)) (vmul Esol frac)) ms.

(** ** interiorTemp, MonthlyModel.cpp 759-1032 *)
(** 767-778; the cast of a number that does not fit in int is undefined. *)
Definition bemAdjust (b : T) : outcome T :=
  match ntrunc b with
  | Some 2%Z => Ok (lit 5 10)
  | Some 3%Z => Ok (zn 1)
  | Some _ => Ok (zn 0)
  | None => UB
  end.
(** 808-821: tau. *)
Definition timeConstant (p : params_t T) (H_tot : T) : T :=
  let s := pa_structure p in
  (st_interiorHeatCapacity s * st_floorArea s + st_wallHeatCapacity s * vsum (st_wallArea s)) / H_tot / zn 3600.
(** One period: [pe_t] hours, outside temperature, temperature rise by gains (836-857). *)
Record period := mkPeriod { pe_t : T; pe_Te : T; pe_dT : T }.
(** 881 and 960: temperature at the end of a period. *)
Definition decayEnd (tau : T) (start : T) (q : period) : T :=
  (start - pe_Te q - pe_dT q) * nexp (nopp (zn 1) * pe_t q / tau) + pe_Te q + pe_dT q.
Fixpoint decayChain (tau start : T) (qs : list period) : list T :=
  match qs with [] => [] | q :: t => let e := decayEnd tau start q in e :: decayChain tau e t end.
(** 926 and 986: mean temperature over a period. *)
Definition decayMean (tau : T) (start : T) (q : period) : T :=
  tau / pe_t q * (start - pe_Te q - pe_dT q) * (zn 1 - nexp (nopp (zn 1) * pe_t q / tau)) + pe_Te q + pe_dT q.
(** 877-929 for one month: means over the five periods with the heating set-points; the chain runs
    through the first four periods, the week night value is that of the second one. *)
Definition heatingPeriods (tau ctrl unocc : T) (qs : list period) : list T :=
  zipw (fun start q => nmax (decayMean tau start q) unocc)
       (ctrl :: map (fun x => nmax x unocc) (decayChain tau ctrl (firstn 4 qs))) qs.
(** 956-992 for one month; the first start is the smaller of the *heating* set-point and the
    unoccupied cooling set-point. *)
Definition coolingPeriods (tau htCtrl ctrl unocc : T) (qs : list period) : list T :=
  zipw (fun start q => nmax (decayMean tau start q) unocc)
       (nmin htCtrl unocc :: map (fun x => nmax x unocc) (decayChain tau ctrl (firstn 4 qs))) qs.
(** 865-867, 930-939, 949-951, 999-1008 and 1017-1031 for one month. *)
Definition weekMean (oc : occupancy) (ctrl : T) (flag : T) (tb : list T) : T :=
  let wke_avg := if flag =? zn 1 then accumulate tb / zn 5 else ctrl in
  let wk_nt := if flag =? zn 1 then nth 1 tb ctrl else ctrl in
  nmin (ctrl * oc_wk_day oc + wk_nt * oc_wk_nt oc + wke_avg * oc_wke_tot oc) ctrl.
Definition periods (oc : occupancy) (H_tot Tnt Tday Pwk_nt Pwke_day Pwke_nt : T) : list period :=
  let hu := oc_hoursUnocc oc in let ho := oc_hoursOcc oc in
  [mkPeriod hu Tnt (Pwk_nt / H_tot); mkPeriod ho Tday (Pwke_day / H_tot); mkPeriod hu Tnt (Pwke_nt / H_tot);
   mkPeriod ho Tday (Pwke_day / H_tot); mkPeriod hu Tnt (Pwke_nt / H_tot)].
Record temps := mkTemps { te_h : list T; te_c : list T; te_tau : T }.
Definition interiorTemp (p : params_t T) (oc : occupancy) (bd : breakdown) (H_tr : T) (Pwk_nt Pwke_day Pwke_nt : list T) : outcome temps :=
  let he := pa_heating p in
  let co := pa_cooling p in
  do adj <- bemAdjust (bu_bem (pa_building p));
  let hctrl := ht_tempOcc he - adj in
  let cctrl := cl_tempOcc co + adj in
  let H_tot := H_tr + ve_H_ve (pa_ventilation p) in
  let tau := timeConstant p H_tot in
  let qs := zipw (fun f x => f x) (zipw (fun f x => f x) (zipw (fun f x => f x) (zipw (periods oc H_tot) (bd_Tnt bd) (bd_Tday bd)) Pwk_nt) Pwke_day) Pwke_nt in
  Ok {| te_h := map (fun q => weekMean oc hctrl (ht_T_ctrl_flag he) (heatingPeriods tau hctrl (ht_tempUnocc he) q)) qs;
        te_c := map (fun q => weekMean oc cctrl (cl_T_ctrl_flag co) (coolingPeriods tau hctrl cctrl (cl_tempUnocc co) q)) qs;
        te_tau := tau |}.

(** ** ventilationCalc, MonthlyModel.cpp 1038-1172 *)
(** 1044: supply rate per floor area. *)
Definition supplyPerArea (p : params_t T) : T := ve_supplyRate (pa_ventilation p) / st_floorArea (pa_structure p) / lit 36 10.
(** 1047-1053: difference between intake and exhaust. *)
Definition flowDifference (p : params_t T) : T :=
  let qv_supp := supplyPerArea p in
  qv_supp + nopp (qv_supp - ve_supplyDifference (pa_ventilation p) / st_floorArea (pa_structure p) / lit 36 10) + zn 0.
(** 1041 and 1075. *)
Definition stackHeight (p : params_t T) : T :=
  ve_zone_frac (pa_ventilation p) * nmax (lit 1 10) (st_buildingHeight (pa_structure p)).
(** 1077-1104: stack flow for one month. *)
Definition stackFlow (p : params_t T) (dbt Tin : T) : T :=
  let ve := pa_ventilation p in
  nmax (npow (nabs (dbt - Tin) * stackHeight p) (ve_stack_exp ve) * (ve_stack_coeff ve * st_infiltrationRate (pa_structure p))) (lit 1 1000).
(** 1108-1111: wind flow for one month. *)
Definition windFlow (p : params_t T) (wind : T) : T :=
  let ve := pa_ventilation p in
  npow (wind * wind * (ve_dCp ve * pa_terrain p)) (ve_wind_exp ve) * st_infiltrationRate (pa_structure p) * ve_wind_coeff ve.
(** 1115-1127: infiltration for one month. *)
Definition infiltration (p : params_t T) (stack wind : T) : T :=
  nmax stack wind + sdiv (stack * wind * lit 14 100) (st_infiltrationRate (pa_structure p)) + nmax (zn 0) (nopp (flowDifference p)).
(** 1141-1157: share of time the fans run, and the mechanical flow. *)
Definition ventFraction (p : params_t T) (wk_day : T) : T :=
  let po := pa_population p in
  match ve_vent_rate_flag (pa_ventilation p) with
  | 0%Z => zn 1
  | 1%Z => wk_day
  | _ => wk_day + (zn 1 - wk_day) * po_densityOcc po / po_densityUnocc po
  end.
Definition mechanicalFlow (p : params_t T) (wk_day : T) : T :=
  let ve := pa_ventilation p in
  if ve_type ve =? zn 3 then zn 0
  else ventFraction p wk_day * supplyPerArea p * (zn 1 - ve_exhaustAirRecirculated ve) * (zn 1 - ve_heatRecoveryEfficiency ve).
(** 1161-1171 for one month. *)
Definition ventilationCoefficient (p : params_t T) (wk_day dbt wind Tin : T) : T :=
  sdiv ((infiltration p (stackFlow p dbt Tin) (windFlow p wind) + mechanicalFlow p wk_day) * (ph_rhoCpAir (pa_phys p) * zn 1000000)) (zn 3600).
Definition ventilationCalc (p : params_t T) (w : mweather) (wk_day : T) (Tavg : list T) : list T :=
  zipw (fun f x => f x) (zipw (ventilationCoefficient p wk_day) (mw_mdbt w) (mw_mwind w)) Tavg.

(** ** heatingAndCooling, MonthlyModel.cpp 1177-1271 *)
(** 1203-1207: heating utilisation of one month. *)
Definition etaHeating (a_H gamma : T) : T :=
  if zn 0 <? gamma then (zn 1 - npow gamma a_H) / (zn 1 - npow gamma (a_H + zn 1)) else zn 1 / (gamma + ndblmin).
(** 1232: the same for cooling, except when the ratio is not positive. *)
Definition etaCooling (a_H gamma : T) : T :=
  if zn 0 <? gamma then (zn 1 - npow gamma a_H) / (zn 1 - npow gamma (a_H + zn 1)) else zn 1.
Record needs := mkNeeds { ne_fan : list T; ne_ht : list T; ne_cl : list T; ne_ht_yr : T; ne_cl_yr : T }.
(** 1190-1195: heat transfer by transmission and ventilation, heating. *)
Definition lossesHeating (p : params_t T) (w : mweather) (H_tr : T) (Tavg Hve : list T) : list T :=
  let dT := vsub Tavg (mw_mdbt w) in
  vadd (scale (vmul dT megasecondsInMonth) H_tr) (vmul (vmul (scale Hve (st_floorArea (pa_structure p))) dT) megasecondsInMonth).
(** 1213-1218: the same for cooling. *)
Definition lossesCooling (p : params_t T) (w : mweather) (H_tr : T) (Tavg Hve : list T) : list T :=
  let dT := vsub Tavg (mw_mdbt w) in
  vadd (vmul (scale dT H_tr) megasecondsInMonth) (vmul (vmul (scale Hve (st_floorArea (pa_structure p))) dT) megasecondsInMonth).
(** 1181-1185. *)
Definition totalGain (phi_I_tot : T) (Esol : list T) : list T := vadd (scale megasecondsInMonth phi_I_tot) Esol.
(** 1197-1210. *)
Definition needHeating (a_H : T) (losses gain : list T) : list T :=
  vsub losses (vmul (map (etaHeating a_H) (vdiv gain (shift losses ndblmin))) gain).
(** 1220-1236. *)
Definition needCooling (a_H : T) (losses gain : list T) : list T :=
  vsub gain (vmul (map (etaCooling a_H) (vdiv losses (shift gain ndblmin))) losses).
(** 1239-1270: fan energy per floor area. *)
Definition fanEnergyMonthly (p : params_t T) (wk_day : T) (Th Tc need_ht need_cl : list T) : list T :=
  let he := pa_heating p in
  let co := pa_cooling p in
  let ve := pa_ventilation p in
  let rho := ph_rhoCpAir (pa_phys p) in
  let T_sup_ht := ht_tempOcc he + ht_dT_supp he in
  let T_sup_cl := cl_tempOcc co - cl_dT_supp co in
  let Vht := vdiv need_ht (shift (scale (map (fun x => T_sup_ht - x) Th) rho) ndblmin) in
  let Vcl := vdiv need_cl (shift (scale (map (fun x => x - T_sup_cl) Tc) rho) ndblmin) in
  let Vtot := vmax (vadd Vht Vcl) (divs (scale megasecondsInMonth (ve_supplyRate ve * wk_day * zn 1000000)) (zn 1000)) in
  divs (divs (scale Vtot (ve_fanPower ve * ve_fanControlFactor ve / zn 1000)) (st_floorArea (pa_structure p))) (lit 36 10).
Definition heatingAndCooling (p : params_t T) (w : mweather) (wk_day H_tr phi_I_tot : T) (te : temps) (Esol Hve_ht Hve_cl : list T) : needs :=
  let gain := totalGain phi_I_tot Esol in
  let a_H := ht_a_H0 (pa_heating p) + te_tau te / ht_tau_H0 (pa_heating p) in
  let need_ht := needHeating a_H (lossesHeating p w H_tr (te_h te) Hve_ht) gain in
  let need_cl := needCooling a_H (lossesCooling p w H_tr (te_c te) Hve_cl) gain in
  {| ne_fan := fanEnergyMonthly p wk_day (te_h te) (te_c te) need_ht need_cl;
     ne_ht := need_ht; ne_cl := need_cl; ne_ht_yr := vsum need_ht; ne_cl_yr := vsum need_cl |}.

(** ** hvac, MonthlyModel.cpp 1276-1410 *)
Record hvacuse := mkHvac { hv_elec_ht : list T; hv_gas_ht : list T; hv_elec_cl : list T; hv_gas_cl : list T }.
(** 1309-1317: shares of demand and distribution efficiencies. *)
Definition demandHt (ht_yr cl_yr : T) : T := nmax (ht_yr / (cl_yr + ht_yr)) (lit 1 10).
Definition demandCl (ht_yr cl_yr : T) : T := nmax (zn 1 - demandHt ht_yr cl_yr) (lit 1 10).
Definition distHt (p : params_t T) (ht_yr cl_yr : T) : T :=
  zn 1 / (zn 1 + ht_hvacLossFactor (pa_heating p) + ht_hotcoldWasteFactor (pa_heating p) / demandHt ht_yr cl_yr).
Definition distCl (p : params_t T) (ht_yr cl_yr : T) : T :=
  zn 1 / (zn 1 + cl_hvacLossFactor (pa_cooling p) + ht_hotcoldWasteFactor (pa_heating p) / demandCl ht_yr cl_yr).
(** 1319-1322. *)
Definition distLoss (need : list T) (eta : T) : list T := divs (scale need (zn 1 - eta)) eta.
Definition hvac (p : params_t T) (need_ht need_cl : list T) (ht_yr cl_yr : T) : hvacuse :=
  let he := pa_heating p in
  let co := pa_cooling p in
  let IEER := cl_cop co * cl_partialLoadValue co in
  let loss_ht := distLoss need_ht (distHt p ht_yr cl_yr) in
  let loss_cl := distLoss need_cl (distCl p ht_yr cl_yr) in
  let district_ht := ht_DH_YesNo he =? zn 1 in
  let district_cl := cl_DC_YesNo co =? zn 1 in
  let DH := if district_ht then vadd need_ht loss_ht else all12 (zn 0) in
  let ht_sys := if district_ht then all12 (zn 0) else divs (vadd loss_ht need_ht) (ht_efficiency he + ndblmin) in
  let DC := if district_cl then vadd need_cl loss_cl else all12 (zn 0) in
  let cl_sys := if district_cl then all12 (zn 0) else divs (vadd loss_cl need_cl) (IEER + ndblmin) in
  let DC_elec := divs (scale DC (zn 1 - cl_eta_DC_frac_abs co)) (cl_eta_DC_COP co * cl_eta_DC_network co) in
  let DC_abs := divs (scale DC (zn 1 - cl_frac_DC_free co)) (cl_eta_DC_COP_abs co) in
  let DH_total := divs (scale DH (zn 1 - ht_frac_DH_free he)) (ht_eta_DH_sys he * ht_eta_DH_network he) in
  let electric := ht_energyType he =? zn 1 in
  {| hv_elec_ht := if electric then ht_sys else all12 (zn 0);
     hv_gas_ht := if electric then DH_total else vadd ht_sys DH_total;
     hv_elec_cl := vadd cl_sys DC_elec;
     hv_gas_cl := DC_abs |}.

(** ** pump, MonthlyModel.cpp 1416-1460 *)
Definition pump (p : params_t T) (need_ht need_cl : list T) (ht_yr cl_yr : T) : list T :=
  let he := pa_heating p in
  let co := pa_cooling p in
  let A := st_floorArea (pa_structure p) in
  let yr_ht := vsum (scale megasecondsInMonth (ht_E_pumps he)) in
  let yr_cl := vsum (scale megasecondsInMonth (cl_E_pumps co)) in
  let both := vadd need_ht need_cl in
  let mode_ht := vdiv need_ht both in
  let Q_ht := yr_ht * ht_pumpControlReduction he * A in
  let v_ht := divs (scale mode_ht Q_ht) (vsum mode_ht) in
  let mode_cl := vdiv need_cl both in
  let Q_cl := yr_cl * cl_pumpControlReduction co * A in
  let v_cl := divs (scale mode_cl Q_cl) (vsum mode_cl) in
  let tot := divs both (ht_yr + cl_yr) in
  if ((Q_ht =? zn 0) || (Q_cl =? zn 0))%bool then vadd v_ht v_cl else divs (scale tot (Q_ht + Q_cl)) (vsum tot).

(** ** heatedWater, MonthlyModel.cpp 1474-1511: electric, gas *)
Definition hotWaterYear (p : params_t T) : T :=
  let he := pa_heating p in ht_hotWaterDemand he * (ht_dhw_tset he - ht_dhw_tsupply he) * ph_rhoCpWater (pa_phys p).
Definition hotWaterNeed (p : params_t T) : list T :=
  let he := pa_heating p in
  let demand := divs (divs (divs (scale daysInMonth (hotWaterYear p)) daysInYear) (ht_hotWaterDistributionEfficiency he)) kWh2MJ in
  map (fun x => nmax x (zn 0)) (divs (vsub demand (all12 (zn 0))) (ht_hotWaterSystemEfficiency he)).
Definition heatedWater (p : params_t T) : list T * list T :=
  let need := hotWaterNeed p in
  if ht_hotWaterEnergyType (pa_heating p) =? zn 1 then (need, all12 (zn 0)) else (all12 (zn 0), need).

(** ** outputGeneration, MonthlyModel.cpp 1719-1801; 1803-1821 come after the return and never run *)
Definition plugLoad (occ unocc wk_day : T) : list T :=
  divs (scale hoursInMonth (occ * wk_day + unocc * (zn 1 - wk_day))) (zn 1000).
Definition perArea (A : T) (v : list T) : list T := divs (divs v A) kWh2MJ.
Definition outputColumns (p : params_t T) (wk_day : T) (lu : lightuse) (n : needs) (h : hvacuse) (pumps : list T) (dhw : list T * list T) : list (list T) :=
  let A := st_floorArea (pa_structure p) in
  let bu := pa_building p in
  [perArea A (hv_elec_ht h); perArea A (hv_elec_cl h); divs (lu_month lu) A; divs (lu_ext lu) A; ne_fan n; perArea A pumps;
   plugLoad (bu_elecApplianceOcc bu) (bu_elecApplianceUnocc bu) wk_day; all12 (zn 0); divs (fst dhw) A;
   perArea A (hv_gas_ht h); perArea A (hv_gas_cl h); plugLoad (bu_gasApplianceOcc bu) (bu_gasApplianceUnocc bu) wk_day; divs (snd dhw) A].
(** 1765-1800: a row of thirteen end uses per month; reading past a column is undefined. *)
Definition outputRows (columns : list (list T)) : outcome (list (list T)) :=
  omap (fun i => omap (fun c => vget c i) columns) (seq 0 12).

(** ** simulate, MonthlyModel.cpp 1513-1718 *)
(** The sizes the code relies on.  Simplification: with other sizes the model says undefined; the
    code reads out of range when a vector is too short. *)
Definition sizes_ok (s : structure_t T) (w : mweather) : bool :=
  (forallb (fun v => Nat.eqb (length v) 9)
     [st_wallArea s; st_windowArea s; st_wallU s; st_windowU s; st_wallEmissivity s; st_wallAbsorption s; st_windowSDF s; st_windowSHGC s; st_windowSCF s]
   && (Nat.eqb (length (mw_msolar w)) 12 && forallb (fun r => Nat.eqb (length r) 8) (mw_msolar w))
   && (Nat.eqb (length (mw_mhdbt w)) 12 && forallb (fun r => Nat.eqb (length r) 24) (mw_mhdbt w))
   && (Nat.eqb (length (mw_mhEgh w)) 12 && forallb (fun r => Nat.eqb (length r) 24) (mw_mhEgh w))
   && forallb (fun v => Nat.eqb (length v) 12) [mw_mEgh w; mw_mdbt w; mw_mwind w])%bool.
(** Everything simulate computes, for use in specifications. *)
Record mresult := mkMres {
  mr_occ : occupancy; mr_bd : breakdown; mr_lu : lightuse; mr_H_tr : T; mr_Esol : list T; mr_gains : gains;
  mr_temps : temps; mr_Hve_ht : list T; mr_Hve_cl : list T; mr_needs : needs; mr_hvac : hvacuse; mr_pump : list T; mr_dhw : list T * list T }.
Definition monthlyAll (p : params_t T) (w : mweather) : outcome mresult :=
  let s := pa_structure p in
  if sizes_ok s w then
    let oc := scheduleAndOccupancy (pa_population p) in
    do bd <- solarRadiationBreakdown oc w;
    let lu := lightingEnergyUse p (bd_hrsSunDown bd) in
    let H_tr := envelopeUA s in
    do winSol <- windowSolarArea s;
    let Esol := solarHeatGain s winSol w in
    let g := heatGainsAndLosses p (oc_wk_day oc) lu in
    let phi_I_tot := internalHeatGain s g in
    let Pwk_nt := unoccupiedHeatGain s (ga_unocc g) (oc_wkUnocc oc) (bd_wk_nt bd) Esol in
    let Pwke_day := unoccupiedHeatGain s (ga_unocc g) (oc_weOcc oc) (bd_wke_day bd) Esol in
    let Pwke_nt := unoccupiedHeatGain s (ga_unocc g) (oc_weUnocc oc) (bd_wke_nt bd) Esol in
    do te <- interiorTemp p oc bd H_tr Pwk_nt Pwke_day Pwke_nt;
    let Hve_ht := ventilationCalc p w (oc_wk_day oc) (te_h te) in
    let Hve_cl := ventilationCalc p w (oc_wk_day oc) (te_c te) in
    let n := heatingAndCooling p w (oc_wk_day oc) H_tr phi_I_tot te Esol Hve_ht Hve_cl in
    let h := hvac p (ne_ht n) (ne_cl n) (ne_ht_yr n) (ne_cl_yr n) in
    let pu := pump p (ne_ht n) (ne_cl n) (ne_ht_yr n) (ne_cl_yr n) in
    Ok (mkMres oc bd lu H_tr Esol g te Hve_ht Hve_cl n h pu (heatedWater p))
  else UB.
Definition simulateMonthly (p : params_t T) (w : mweather) : outcome (list (list T)) :=
  do m <- monthlyAll p w;
  outputRows (outputColumns p (oc_wk_day (mr_occ m)) (mr_lu m) (mr_needs m) (mr_hvac m) (mr_pump m) (mr_dhw m)).
End Monthly.
Arguments occupancy T : clear implicits.
Arguments mweather T : clear implicits.
Arguments breakdown T : clear implicits.
Arguments lightuse T : clear implicits.
Arguments gains T : clear implicits.
Arguments period T : clear implicits.
Arguments temps T : clear implicits.
Arguments needs T : clear implicits.
Arguments hvacuse T : clear implicits.
Arguments mresult T : clear implicits.
