(** The std::vector reader of number lists. *)
From Coq Require Import Ascii String List.
From Verif Require Import Base Text M_Text M_Properties S_Text S_Properties L_Text L_Properties.
Import ListNotations.
Open Scope char_scope.
Open Scope list_scope.

Fixpoint conv {T} (rd : reader T) (vec : list T) (fs : list text) : outcome (bool * list T) :=
  match fs with
  | [] => Ok (true, vec)
  | f :: r => match rd_stod rd f with Value x => conv rd (vec ++ [x]) r | NoConversion => Ok (false, vec) | RangeError => Throw OutOfRange end
  end.
Lemma scan_plain : forall T (rd : reader T) f tok o s vec, plain f ->
  stod_scan rd (f ++ s) tok false false o vec = stod_scan rd s (tok ++ f) false false (match f with [] => o | _ => true end) vec.
Proof.
  induction f as [|c f IH]; intros tok o s vec P; [rewrite app_nil_r; reflexivity|].
  inversion P as [|? ? (A & B & C) P']; subst. cbn [app stod_scan].
  destruct (Ascii.eqb_spec c "\"); [congruence|]. destruct (Ascii.eqb_spec c ","); [congruence|].
  destruct (Ascii.eqb_spec c """"); [congruence|]. rewrite IH by exact P'. rewrite <- app_assoc. cbn [app].
  destruct f; reflexivity.
Qed.
Lemma scan_end : forall T (rd : reader T) f vec, stod_scan rd [] f false false true vec = conv rd vec [f].
Proof. intros. cbn. destruct (rd_stod rd f); reflexivity. Qed.
Lemma scan_comma : forall T (rd : reader T) f s o vec, stod_scan rd ("," :: s) f false false o vec =
  match rd_stod rd f with Value x => stod_scan rd s [] false false true (vec ++ [x]) | NoConversion => Ok (false, vec) | RangeError => Throw OutOfRange end.
Proof. reflexivity. Qed.
Lemma scan_joined_open : forall T (rd : reader T) fs f vec, plain f -> Forall plain fs ->
  stod_scan rd (joined "," (f :: fs)) [] false false true vec = conv rd vec (f :: fs).
Proof.
  induction fs as [|g fs IH]; intros f vec P F.
  - cbn [joined]. rewrite <- (app_nil_r f) at 1. rewrite scan_plain by exact P. replace (match f with [] => true | _ => true end) with true by (destruct f; reflexivity). apply scan_end.
  - inversion F; subst. change (joined "," (f :: g :: fs)) with (f ++ "," :: joined "," (g :: fs)). rewrite scan_plain by exact P. rewrite scan_comma. cbn [app].
    cbn [conv]. destruct (rd_stod rd f); [|reflexivity|reflexivity]. apply IH; assumption.
Qed.
Lemma scan_joined : forall T (rd : reader T) fs vec, Forall plain fs -> joined "," fs <> [] -> stod_scan rd (joined "," fs) [] false false false vec = conv rd vec fs.
Proof.
  intros T rd [|f fs] vec F N; [exfalso; apply N; reflexivity|]. inversion F; subst. destruct fs as [|g fs].
  - cbn [joined] in *. rewrite <- (app_nil_r f) at 1. rewrite scan_plain by assumption. destruct f as [|c f]; [congruence|]. apply scan_end.
  - change (joined "," (f :: g :: fs)) with (f ++ "," :: joined "," (g :: fs)). rewrite scan_plain by assumption. rewrite scan_comma. cbn [app]. cbn [conv].
    destruct (rd_stod rd f); [|reflexivity|reflexivity]. inversion H2; subst. apply scan_joined_open; assumption.
Qed.
Lemma conv_good : forall T (rd : reader T) gs xs, Forall2 (fun f x => rd_stod rd f = Value x) gs xs -> forall vec r, conv rd vec (gs ++ r) = conv rd (vec ++ xs) r.
Proof.
  induction 1 as [|f x gs xs E F IH]; intros vec r; [rewrite app_nil_r; reflexivity|]. cbn [app conv]. rewrite E, IH, <- app_assoc. reflexivity.
Qed.
Lemma C57_std_vector_l : forall T (rd : reader T) m k vec,
  (getProperty m k = None -> getPropertyAsStdVector rd m k vec = Ok (false, vec)) /\
  forall fs, Forall plain fs -> joined "," fs <> [] -> getProperty m k = Some (joined "," fs) ->
  (forall xs, Forall2 (fun f x => rd_stod rd f = Value x) fs xs -> getPropertyAsStdVector rd m k vec = Ok (true, xs)) /\
  (forall gs f hs xs, fs = gs ++ f :: hs -> Forall2 (fun f x => rd_stod rd f = Value x) gs xs ->
    (rd_stod rd f = NoConversion -> getPropertyAsStdVector rd m k vec = Ok (false, xs)) /\
    (rd_stod rd f = RangeError -> getPropertyAsStdVector rd m k vec = Throw OutOfRange)).
Proof.
  intros T rd m k vec. split; [intros E; unfold getPropertyAsStdVector; rewrite E; reflexivity|].
  intros fs P N G. unfold getPropertyAsStdVector. rewrite G, (scan_joined _ rd fs [] P N). split.
  - intros xs F. rewrite <- (app_nil_r fs), (conv_good _ _ _ _ F). reflexivity.
  - intros gs f hs xs -> F. rewrite (conv_good _ _ _ _ F). cbn [app conv]. split; intros E; rewrite E; reflexivity.
Qed.
Lemma C57_ublas_l : forall T (rd : reader T) m k,
  (getProperty m k = None -> getPropertyAsDoubleVector rd m k = Ok None) /\
  forall gs f hs xs, let fs := gs ++ f :: hs in Forall plain fs -> joined "," fs <> [] -> getProperty m k = Some (joined "," fs) ->
  Forall2 (fun f x => rd_stod rd f = Value x) gs xs ->
  (rd_stod rd f = NoConversion -> getPropertyAsDoubleVector rd m k = Ok None) /\
  (rd_stod rd f = RangeError -> getPropertyAsDoubleVector rd m k = Throw OutOfRange).
Proof.
  intros T rd m k. split; [intros E; unfold getPropertyAsDoubleVector; rewrite E; reflexivity|].
  intros gs f hs xs fs P N G F. unfold getPropertyAsDoubleVector. rewrite G, csv_joined by assumption. cbn [obind]. unfold fs. clear -F.
  induction F as [|g x gs xs E F IH]; cbn [app stod_all].
  - split; intros E; rewrite E; reflexivity.
  - destruct IH as [I1 I2]. rewrite E. split; intros H; [rewrite (I1 H)|rewrite (I2 H)]; reflexivity.
Qed.
