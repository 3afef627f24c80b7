(** A weather file for the concrete cases: the first records of test_data/ORD.epw, with the header
    lines 2 to 8 shortened. *)
From Coq Require Import Ascii String ZArith.
From Verif Require Import Base Text S_Text.
Open Scope string_scope.
Open Scope list_scope.

Definition epwHeader : list text := map tx
  ["LOCATION,Chicago Ohare Intl Ap,IL,USA,TMY3,725300,41.98,-87.92,-6.0,201.0";
   "DESIGN CONDITIONS,1,Climate Design Data 2009 ASHRAE Handbook"; "TYPICAL/EXTREME PERIODS,6";
   "GROUND TEMPERATURES,3"; "HOLIDAYS/DAYLIGHT SAVINGS,No,0,0,0"; "COMMENTS 1"; "COMMENTS 2";
   "DATA PERIODS,1,1,Data,Sunday, 1/ 1,12/31"].
Definition epwRecord1 : text := tx "1986,1,1,1,0,?9?9,-12.2,-16.1,73,99500,0,0,218,0,0,0,0,0,0,0,270,2.6,9,9,24.1".
Definition epwRecord2 : text := tx "1986,1,1,2,0,?9?9,-11.7,-15.6,74,99600,0,0,227,5,6,7,0,0,0,0,250,2.1,10,10,24.1".
(** A record cut off after the dew point. *)
Definition epwShort : text := tx "1986,1,1,1,0,?9?9,-12.2,16.5".
Definition epwSample : text := ended (epwHeader ++ [epwRecord1; epwRecord2]).
Definition epwCut : text := ended (epwHeader ++ [epwShort]).
