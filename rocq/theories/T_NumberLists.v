(** C57: what the two readers of number lists return and leave in the caller's vector. *)
From Coq Require Import Ascii String List.
From Verif Require Import Base Text M_Properties S_Text L_NumberLists.
Import ListNotations.
Open Scope char_scope.
Open Scope list_scope.

(** The std::vector reader leaves the caller's vector alone if the key is absent, replaces it by the numbers if all
    fields are numbers, and stops at the first field that is not one with the numbers before it. *)
Theorem C57_std_vector : forall T (rd : reader T) m k vec,
  (getProperty m k = None -> getPropertyAsStdVector rd m k vec = Ok (false, vec)) /\
  forall fs, Forall plain fs -> joined "," fs <> [] -> getProperty m k = Some (joined "," fs) ->
  (forall xs, Forall2 (fun f x => rd_stod rd f = Value x) fs xs -> getPropertyAsStdVector rd m k vec = Ok (true, xs)) /\
  (forall gs f hs xs, fs = gs ++ f :: hs -> Forall2 (fun f x => rd_stod rd f = Value x) gs xs ->
    (rd_stod rd f = NoConversion -> getPropertyAsStdVector rd m k vec = Ok (false, xs)) /\
    (rd_stod rd f = RangeError -> getPropertyAsStdVector rd m k vec = Throw OutOfRange)).
Proof. exact C57_std_vector_l. Qed.
Print Assumptions C57_std_vector.

(** The ublas reader refuses an absent key and a list with a field that is not a number. *)
Theorem C57_ublas_refused : forall T (rd : reader T) m k,
  (getProperty m k = None -> getPropertyAsDoubleVector rd m k = Ok None) /\
  forall gs f hs xs, let fs := gs ++ f :: hs in Forall plain fs -> joined "," fs <> [] -> getProperty m k = Some (joined "," fs) ->
  Forall2 (fun f x => rd_stod rd f = Value x) gs xs ->
  (rd_stod rd f = NoConversion -> getPropertyAsDoubleVector rd m k = Ok None) /\
  (rd_stod rd f = RangeError -> getPropertyAsDoubleVector rd m k = Throw OutOfRange).
Proof. exact C57_ublas_l. Qed.
Print Assumptions C57_ublas_refused.

(** Three fields of which the last is not a number. *)
Example C57_std_case : let rd := mkReader (fun t : text => match t with [] => NoConversion | _ => Value (List.length t) end) (fun _ => NoConversion) (fun _ => 0) in
  let m := putProperty empty_props "wallU"%string (joined "," [tx "1"; tx " 22"; tx ""]) in
  Forall plain [tx "1"; tx " 22"; tx ""] /\ joined "," [tx "1"; tx " 22"; tx ""] <> [] /\ getProperty m "WALLU"%string = Some (joined "," [tx "1"; tx " 22"; tx ""]) /\
  Forall2 (fun f x => rd_stod rd f = Value x) [tx "1"; tx " 22"] [1; 3] /\ rd_stod rd (tx "") = NoConversion.
Proof. split; [repeat constructor; discriminate|]. split; [discriminate|]. split; [reflexivity|]. split; [repeat constructor|reflexivity]. Qed.
