(** Model of SolarRadiation.{hpp,cpp}. *)
From Coq Require Import ZArith.
From Verif Require Import Base Num M_TimeFrame M_Epw.
Open Scope nat_scope.

Section Solar.
Context {T : Type} {N : Num T}.
Local Open Scope num_scope.

(** SolarRadiation.hpp 31: const double PI = 3.1415926535897. *)
Definition PI_ : T := lit 31415926535897 10000000000000.
(** SolarRadiation.hpp 32-34. *)
Definition NUM_SURFACES : nat := 8.
Definition MONTHS : nat := 12.
Definition HOURS : nat := 24.
(** SolarRadiation.cpp 10: S, SE, E, NE, N, NW, W, SW. *)
Definition SurfaceAzimuths : list T :=
  [zn 0; - PI_ / zn 4; - PI_ / zn 2; zn (-3) * PI_ / zn 4; PI_; zn 3 * PI_ / zn 4; PI_ / zn 2; PI_ / zn 4].

(** SolarRadiation.hpp 53-62: the averages. *)
Record averages := mkAverages {
  av_mdbt : list T; av_mdpt : list T; av_mrh : list T; av_mwind : list T; av_megh : list T;
  av_msol : list (list T);
  av_hdbt : list (list T); av_hdpt : list (list T); av_hegh : list (list T) }.
(** SolarRadiation.hpp 43-62.  The pointers m_frame and m_epwData are arguments of the functions
    that follow them. *)
Record solar := mkSolar {
  so_tilt : T; so_meridian : T; so_lon : T; so_lat : T; so_rho : T;
  so_eglobe : list (list T);
  so_avg : averages }.

(** SolarRadiation.cpp 13-44.  Reading the site of a weather object that was never loaded is
    undefined. *)
Definition newSolar (e : epw T) (tilt : T) : outcome solar :=
  match ep_site e with
  | None => UB
  | Some (lat, lon, tz) =>
      let z := repeat (zn 0) MONTHS in
      let zh := repeat (repeat (zn 0) HOURS) MONTHS in
      Ok (mkSolar (tilt / zn 2) (zn tz * zn 15 * PI_ / zn 180) (lon * PI_ / zn 180) (lat * PI_ / zn 180) (lit 14 100)
            (repeat (repeat (zn 0) NUM_SURFACES) slices)
            (mkAverages z z z z z (repeat (repeat (zn 0) NUM_SURFACES) MONTHS) zh zh zh))
  end.

(** SolarRadiation.hpp 81-83. *)
Definition revolutionAngle (dayOfYear : Z) : T := zn 2 * PI_ * zn dayOfYear / zn 365.
(** SolarRadiation.hpp 89-92. *)
Definition equationOfTime (r : T) : T :=
  lit 22918 10000 * (lit 75 10000 + lit 1868 10000 * ncos r - lit 32077 10000 * nsin r
    - lit 14615 10000 * ncos (zn 2 * r) - lit 4089 1000 * nsin (zn 2 * r)).
(** SolarRadiation.hpp 99-101. *)
Definition apparentSolarTime (s : solar) (hourOfDay : Z) (eot : T) : T :=
  zn hourOfDay + eot / zn 60 + (so_lon s - so_meridian s) / (PI_ / zn 12).
(** SolarRadiation.hpp 108-111. *)
Definition solarDeclination (r : T) : T :=
  lit 6918 1000000 - lit 399912 1000000 * ncos r + lit 70257 1000000 * nsin r - lit 6758 1000000 * ncos (zn 2 * r)
  + lit 907 1000000 * nsin (zn 2 * r) - lit 2697 1000000 * ncos (zn 3 * r) + lit 148 100000 * nsin (zn 3 * r).
(** SolarRadiation.hpp 117-119. *)
Definition solarHourAngle (ast : T) : T := zn 15 * (ast - zn 12) * PI_ / zn 180.
(** SolarRadiation.hpp 125-127. *)
Definition solarAltitude (s : solar) (dec ha : T) : T :=
  nasin (ncos (so_lat s) * ncos dec * ncos ha + nsin (so_lat s) * nsin dec).
(** SolarRadiation.hpp 133-135. *)
Definition solarAzimuthSin (dec ha alt : T) : T := nsin ha * ncos dec / ncos alt.
(** SolarRadiation.hpp 141-144. *)
Definition solarAzimuthCos (s : solar) (dec ha alt : T) : T :=
  (ncos ha * ncos dec * nsin (so_lat s) - nsin dec * ncos (so_lat s)) / ncos alt.
(** SolarRadiation.hpp 149-151. *)
Definition solarAzimuth (sn cs : T) : T := natan2 sn cs.
(** SolarRadiation.hpp 159-166. *)
Definition groundReflected (eb ed rho alt tilt : T) : T :=
  (eb * nsin alt + ed) * rho * (zn 1 - ncos tilt) / zn 2.
(** SolarRadiation.hpp 173-175. *)
Definition surfaceSolarAzimuth (az surface : T) : T := nabs (az - surface).
(** SolarRadiation.hpp 181-184. *)
Definition angleOfIncidence (alt ssa tilt : T) : T :=
  nacos (ncos alt * ncos ssa * nsin tilt + nsin alt * ncos tilt).
(** SolarRadiation.hpp 190-192. *)
Definition totalDirect (eb aoi : T) : T := eb * nmax (ncos aoi) (zn 0).
(** SolarRadiation.hpp 198-200. *)
Definition diffuseFactor (aoi : T) : T :=
  nmax (lit 45 100) (lit 55 100 + lit 437 1000 * ncos aoi + lit 313 1000 * npow (ncos aoi) (zn 2)).
(** SolarRadiation.hpp 206-216. *)
Definition totalDiffuse (ed y tilt : T) : T :=
  if tilt >? PI_ / zn 2 then ed * y * nsin tilt else ed * (y * nsin tilt + ncos tilt).
(** SolarRadiation.hpp 222-226. *)
Definition totalIrradiance (direct diffuse ground : T) : T := direct + diffuse + ground.

(** SolarRadiation.cpp 68-79: the sun for one hour (altitude and azimuth). *)
Definition sunPosition (s : solar) (c : tcell) : T * T :=
  let rev := revolutionAngle (tc_ytd c) in
  let ast := apparentSolarTime s (tc_hour c) (equationOfTime rev) in
  let dec := solarDeclination rev in
  let ha := solarHourAngle ast in
  let alt := solarAltitude s dec ha in
  (alt, solarAzimuth (solarAzimuthSin dec ha alt) (solarAzimuthCos s dec ha alt)).
(** SolarRadiation.cpp 86-94: one surface. *)
Definition surfaceIrradiance (s : solar) (alt az ground eb ed azimuth : T) : T :=
  let ssa := surfaceSolarAzimuth az azimuth in
  let aoi := angleOfIncidence alt ssa (so_tilt s) in
  totalIrradiance (totalDirect eb aoi) (totalDiffuse ed (diffuseFactor aoi) (so_tilt s)) ground.

(** Reading one hour of the calendar; a cell that was never written is undefined. *)
Definition frameCell (frame : list (option tcell)) (i : nat) : outcome tcell :=
  do o <- vget frame i; match o with Some c => Ok c | None => UB end.

(** SolarRadiation.cpp 66-96: one hour. *)
Definition surfaceHour (s : solar) (frame : list (option tcell)) (eb ed : list T)
    (eglobe : list (list T)) (i : nat) : outcome (list (list T)) :=
  do c <- frameCell frame i;
  let '(alt, az) := sunPosition s c in
  do b <- vget eb i;
  do d <- vget ed i;
  let ground := groundReflected b d (so_rho s) alt (so_tilt s) in
  do row <- vget eglobe i;
  do row' <- ofold (fun row k => do a <- vget SurfaceAzimuths k; vset row k (surfaceIrradiance s alt az ground b d a))
               (seq 0 NUM_SURFACES) row;
  vset eglobe i row'.
(** SolarRadiation.cpp 56-98. *)
Definition calculateSurfaceSolarRadiation (frame : list (option tcell)) (data : list (list T)) (s : solar) : outcome solar :=
  do eb <- vget data EB;
  do ed <- vget data ED;
  do g <- ofold (surfaceHour s frame eb ed) (seq 0 slices) (so_eglobe s);
  Ok (mkSolar (so_tilt s) (so_meridian s) (so_lon s) (so_lat s) (so_rho s) g (so_avg s)).

(** [v[i] = f(v[i])] and [m[i][j] = f(m[i][j])]. *)
Definition vmod {A} (v : list A) (i : nat) (f : A -> A) : outcome (list A) :=
  do x <- vget v i; vset v i (f x).
Definition mmod {A} (m : list (list A)) (i j : nat) (f : A -> A) : outcome (list (list A)) :=
  do r <- vget m i; do r' <- vmod r j f; vset m i r'.
(** for (j = 0; j < n; j++) m[i][j] = f(m[i][j]) *)
Definition mrow {A} (n : nat) (m : list (list A)) (i : nat) (f : A -> A) : outcome (list (list A)) :=
  ofold (fun m j => mmod m i j f) (seq 0 n) m.
(** A vector index held in an int. *)
Definition index (z : Z) : outcome nat := if (z <? 0)%Z then UB else Ok (Z.to_nat z).

(** SolarRadiation.cpp 101-122. *)
Definition calculateMonthAvg (midx cnt : Z) (a : averages) : outcome averages :=
  if (midx >? -1)%Z then
    do k <- index midx;
    do mdbt <- vmod (av_mdbt a) k (fun x => x / zn cnt);
    do mdpt <- vmod (av_mdpt a) k (fun x => x / zn cnt);
    do mrh <- vmod (av_mrh a) k (fun x => x / zn cnt);
    do mwind <- vmod (av_mwind a) k (fun x => x / zn cnt);
    do megh <- vmod (av_megh a) k (fun x => x / zn cnt);
    do msol <- mrow NUM_SURFACES (av_msol a) k (fun x => x / zn cnt);
    let days := monthLength (midx + 1) in
    do hdbt <- mrow 24 (av_hdbt a) k (fun x => x / zn days);
    do hdpt <- mrow 24 (av_hdpt a) k (fun x => x / zn days);
    do hegh <- mrow 24 (av_hegh a) k (fun x => x / zn days);
    Ok (mkAverages mdbt mdpt mrh mwind megh msol hdbt hdpt hegh)
  else Ok a.
(** SolarRadiation.cpp 124-139. *)
Definition clearMonthlyAvg (midx : Z) (a : averages) : outcome averages :=
  do k <- index midx;
  do hdbt <- mrow 24 (av_hdbt a) k (fun _ => zn 0);
  do hdpt <- mrow 24 (av_hdpt a) k (fun _ => zn 0);
  do hegh <- mrow 24 (av_hegh a) k (fun _ => zn 0);
  do msol <- mrow NUM_SURFACES (av_msol a) k (fun _ => zn 0);
  do mdbt <- vset (av_mdbt a) k (zn 0);
  do mdpt <- vset (av_mdpt a) k (zn 0);
  do mrh <- vset (av_mrh a) k (zn 0);
  do mwind <- vset (av_mwind a) k (zn 0);
  do megh <- vset (av_megh a) k (zn 0);
  Ok (mkAverages mdbt mdpt mrh mwind megh msol hdbt hdpt hegh).

(** The local variables of calculateAverages (SolarRadiation.cpp 143-145). *)
Record avgstate := mkAvgstate { as_avg : averages; as_month : Z; as_midx : Z; as_cnt : Z }.
(** SolarRadiation.cpp 157-165: the change of month. *)
Definition monthChange (c : tcell) (st : avgstate) : outcome avgstate :=
  if (tc_month c =? as_month st)%Z then Ok st
  else
    do a <- calculateMonthAvg (as_midx st) (as_cnt st) (as_avg st);
    do a' <- clearMonthlyAvg (as_midx st + 1)%Z a;
    Ok (mkAvgstate a' (tc_month c) (as_midx st + 1) 0).
(** SolarRadiation.cpp 166-177: add one hour to the bins of month [k]. *)
Definition accumulateHour (dbt dpt rh egh wspd : list T) (eglobe : list (list T)) (i h : nat) (k : nat) (a : averages) : outcome averages :=
  do x <- vget dbt i; do mdbt <- vmod (av_mdbt a) k (fun y => y + x);
  do x <- vget dpt i; do mdpt <- vmod (av_mdpt a) k (fun y => y + x);
  do x <- vget rh i; do mrh <- vmod (av_mrh a) k (fun y => y + x);
  do x <- vget egh i; do megh <- vmod (av_megh a) k (fun y => y + x);
  do x <- vget wspd i; do mwind <- vmod (av_mwind a) k (fun y => y + x);
  do msol <- ofold (fun m s => do row <- vget eglobe i; do x <- vget row s; mmod m k s (fun y => y + x))
               (seq 0 NUM_SURFACES) (av_msol a);
  do x <- vget dbt i; do hdbt <- mmod (av_hdbt a) k h (fun y => y + x);
  do x <- vget dpt i; do hdpt <- mmod (av_hdpt a) k h (fun y => y + x);
  do x <- vget egh i; do hegh <- mmod (av_hegh a) k h (fun y => y + x);
  Ok (mkAverages mdbt mdpt mrh mwind megh msol hdbt hdpt hegh).
(** SolarRadiation.cpp 156-178: one hour. *)
Definition averageHour (frame : list (option tcell)) (dbt dpt rh egh wspd : list T) (eglobe : list (list T))
    (st : avgstate) (i : nat) : outcome avgstate :=
  do c <- frameCell frame i;
  do st' <- monthChange c st;
  do k <- index (as_midx st');
  do h <- index (tc_hour c);
  do a <- accumulateHour dbt dpt rh egh wspd eglobe i h k (as_avg st');
  Ok (mkAvgstate a (as_month st') (as_midx st') (as_cnt st' + 1)).
(** SolarRadiation.cpp 141-181. *)
Definition calculateAverages (frame : list (option tcell)) (data : list (list T)) (s : solar) : outcome solar :=
  do dbt <- vget data DBT;
  do dpt <- vget data DPT;
  do rh <- vget data RH;
  do egh <- vget data EGH;
  do wspd <- vget data WSPD;
  do st <- ofold (averageHour frame dbt dpt rh egh wspd (so_eglobe s)) (seq 0 slices) (mkAvgstate (so_avg s) 0 (-1) 0);
  do a <- calculateMonthAvg (as_midx st) (as_cnt st) (as_avg st);
  Ok (mkSolar (so_tilt s) (so_meridian s) (so_lon s) (so_lat s) (so_rho s) (so_eglobe s) a).
(** SolarRadiation.cpp 185-189. *)
Definition calculate (frame : list (option tcell)) (data : list (list T)) (s : solar) : outcome solar :=
  do s' <- calculateSurfaceSolarRadiation frame data s;
  calculateAverages frame data s'.
End Solar.
Arguments averages T : clear implicits.
Arguments solar T : clear implicits.
Arguments avgstate T : clear implicits.
