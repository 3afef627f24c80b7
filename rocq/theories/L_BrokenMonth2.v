(** The office in the mild year, with and without the mean temperature of January. *)
From Coq Require Import ZArith Bool List.
From Flocq Require Import IEEE754.BinarySingleNaN.
From Verif Require Import Base Num Dbl M_Params M_Monthly S_Results S_BrokenMonth E_Broken E_BrokenMonth L_BrokenMonth.
Import ListNotations.

Definition number_at (rows : list (list double)) (j u : nat) : bool :=
  match nth_error rows j with Some row => match nth_error row u with Some x => is_finite x | None => false end | None => false end.
Definition all_numbers (rows : list (list double)) : bool :=
  forallb (fun j => forallb (number_at rows j) [heating_column month_office; elec_cooling; elec_pumps]) (seq 0 12).
Definition passes (o : outcome (list (list double))) (f : list (list double) -> bool) : bool := match o with Ok rows => f rows | _ => false end.
Lemma passes_ok : forall o f, passes o f = true -> exists rows, o = Ok rows /\ f rows = true.
Proof. intros [rows| |] f H; try discriminate H. exists rows. split; [reflexivity|exact H]. Qed.
Lemma mild_finite : passes (@simulateMonthly double (dbl_num any_libm) month_office mild) all_numbers = true.
Proof. vm_compute. reflexivity. Qed.
Lemma unread_runs : passes (@simulateMonthly double (dbl_num any_libm) month_office unread_january) (fun _ => true) = true.
Proof. vm_compute. reflexivity. Qed.
Lemma office_works : working month_office.
Proof. repeat split; vm_compute; reflexivity. Qed.
Lemma unread_is : broken_month unread_january.
Proof. left. left. reflexivity. Qed.
Lemma C123_case_l : broken_month unread_january /\ working month_office /\
  exists rows, @simulateMonthly double (dbl_num any_libm) month_office unread_january = Ok rows.
Proof.
  split; [exact unread_is|]. split; [exact office_works|]. destruct (passes_ok _ _ unread_runs) as (rows&E&_). exists rows. exact E.
Qed.
Lemma C123_refuted_l : exists (L : libm) p w w' rows rows',
  (mw_msolar w' = mw_msolar w /\ mw_mhdbt w' = mw_mhdbt w /\ mw_mhEgh w' = mw_mhEgh w /\ mw_mEgh w' = mw_mEgh w /\ mw_mwind w' = mw_mwind w /\
   forall k, k <> 0%nat -> nth_error (mw_mdbt w') k = nth_error (mw_mdbt w) k) /\
  simulateMonthly (N := dbl_num L) p w = Ok rows /\ simulateMonthly (N := dbl_num L) p w' = Ok rows' /\
  forall j u, (j < 12)%nat -> In u [heating_column p; elec_cooling; elec_pumps] -> (exists row x, nth_error rows j = Some row /\ nth_error row u = Some x /\ is_finite x = true) /\
    forall row, nth_error rows' j = Some row -> nth_error row u = Some B754_nan.
Proof.
  destruct C123_case_l as (B&W&rows'&E'). destruct (passes_ok _ _ mild_finite) as (rows&E&M). unfold all_numbers in M.
  exists any_libm, month_office, mild, unread_january, rows, rows'.
  split; [repeat split; intros [|k] K; [congruence|reflexivity]|]. split; [exact E|]. split; [exact E'|]. intros j u J U. split.
  - rewrite forallb_forall in M. specialize (M j ltac:(apply in_seq; split; [apply Nat.le_0_l|exact J])). rewrite forallb_forall in M. specialize (M u U). unfold number_at in M.
    destruct (nth_error rows j) as [row|]; [|discriminate M]. destruct (nth_error row u) as [x|] eqn:X; [|discriminate M]. exists row, x. repeat split; [exact X|exact M].
  - intros row R. exact (C123_year_l month_office unread_january rows' E' B W row (nth_error_In _ _ R) u U).
Qed.
