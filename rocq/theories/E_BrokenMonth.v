(** Example data for C123: the mild year whose January has no mean temperature. *)
From Coq Require Import ZArith List.
From Flocq Require Import IEEE754.BinarySingleNaN.
From Verif Require Import Base Num Dbl M_Params M_Monthly E_SmallOffice E_Monthly E_Broken.
Import ListNotations.

Definition mild : mweather double := @mildYear double (dbl_num any_libm).
Definition unread_january : mweather double :=
  {| mw_msolar := mw_msolar mild; mw_mhdbt := mw_mhdbt mild; mw_mhEgh := mw_mhEgh mild; mw_mEgh := mw_mEgh mild;
     mw_mdbt := B754_nan :: tl (mw_mdbt mild); mw_mwind := mw_mwind mild |}.
Definition month_office : params_t double := @monthlyOffice double (dbl_num any_libm).
