(** Number instances: the reals [R] and the extended reals [xr].
    [xr] follows IEEE 754 on exceptional values but computes exactly on finite
    ones: no rounding, no overflow, and a zero divisor counts as +0. *)
From Coq Require Import Reals Lra ZArith Bool.
From Verif Require Import Base Num.
Open Scope R_scope.

Definition Rltb (a b : R) : bool := if Rlt_dec a b then true else false.
Definition Reqb (a b : R) : bool := if Req_EM_T a b then true else false.

(** Truncation toward zero of a real. *)
Definition Rtrunc (x : R) : Z := if Rlt_dec x 0 then (- Int_part (- x))%Z else Int_part x.
(** C++ [int] is assumed to have 32 bits. *)
Definition int_max : Z := 2147483647.
Definition int_min : Z := (-2147483648)%Z.
Definition Rtoint (x : R) : option Z :=
  let z := Rtrunc x in if (Z.leb int_min z && Z.leb z int_max)%bool then Some z else None.

(** std::pow on finite arguments where the result is a finite number. *)
Definition Rpow_int (x y : R) : option R :=
  if Req_EM_T (IZR (Int_part y)) y then Some (powerRZ x (Int_part y)) else None.
Definition Rpow (x y : R) : R :=
  if Rlt_dec 0 x then Rpower x y
  else if Req_EM_T y 0 then 1
  else if Req_EM_T x 0 then 0
  else match Rpow_int x y with Some r => r | None => 0 end.

(** std::atan2 on reals (C standard 7.12.4.4; atan2(0,0)=0). *)
Definition Ratan2 (y x : R) : R :=
  if Rlt_dec 0 x then atan (y / x)
  else if Rlt_dec x 0 then
    (if Rlt_dec y 0 then atan (y / x) - Rtrigo1.PI else atan (y / x) + Rtrigo1.PI)
  else if Rlt_dec 0 y then Rtrigo1.PI / 2
  else if Rlt_dec y 0 then - (Rtrigo1.PI / 2)
  else 0.

(** DBL_MIN = 2^-1022, DBL_MAX = (2 - 2^-52) * 2^1023. *)
Definition Rdblmin : R := / (2 ^ 1022).
Definition Rdblmax : R := (2 - / (2 ^ 52)) * 2 ^ 1023.

Definition Rlit (n : Z) (d : positive) : R := IZR n / IZR (Zpos d).

(** The reals as numbers.  Division by zero, asin outside [-1,1] and pow of a
    negative base are meaningless here: use it only under guards (see [xr]). *)
#[global] Instance R_num : Num R := {|
  lit := Rlit;
  nadd := Rplus; nsub := Rminus; nmul := Rmult; ndiv := Rdiv; nopp := Ropp; nabs := Rabs;
  nlt := Rltb; neqb := Reqb; npow := Rpow; nexp := exp; nsin := sin; ncos := cos;
  nasin := asin; nacos := acos; natan2 := Ratan2; ntrunc := Rtoint;
  ndblmin := Rdblmin; ndblmax := Rdblmax |}.

Inductive xr : Type := Fin (r : R) | PInf | NInf | NaN.

Definition xopp (a : xr) : xr :=
  match a with Fin r => Fin (- r) | PInf => NInf | NInf => PInf | NaN => NaN end.
Definition xabs (a : xr) : xr :=
  match a with Fin r => Fin (Rabs r) | PInf | NInf => PInf | NaN => NaN end.
Definition xadd (a b : xr) : xr :=
  match a, b with
  | NaN, _ | _, NaN => NaN
  | Fin x, Fin y => Fin (x + y)
  | Fin _, PInf | PInf, Fin _ | PInf, PInf => PInf
  | Fin _, NInf | NInf, Fin _ | NInf, NInf => NInf
  | PInf, NInf | NInf, PInf => NaN
  end.
Definition xsub (a b : xr) : xr :=
  match a, b with
  | Fin x, Fin y => Fin (x - y)
  | _, _ => xadd a (xopp b)
  end.
(** Infinity with the sign of [x] times [inf]; NaN when x = 0. *)
Definition xscale (x : R) (pos neg : xr) : xr :=
  if Rlt_dec 0 x then pos else if Rlt_dec x 0 then neg else NaN.
Definition xmul (a b : xr) : xr :=
  match a, b with
  | NaN, _ | _, NaN => NaN
  | Fin x, Fin y => Fin (x * y)
  | Fin x, PInf | PInf, Fin x => xscale x PInf NInf
  | Fin x, NInf | NInf, Fin x => xscale x NInf PInf
  | PInf, PInf | NInf, NInf => PInf
  | PInf, NInf | NInf, PInf => NInf
  end.
Definition xdiv (a b : xr) : xr :=
  match a, b with
  | NaN, _ | _, NaN => NaN
  | Fin x, Fin y => if Req_EM_T y 0 then xscale x PInf NInf else Fin (x / y)
  | Fin _, PInf | Fin _, NInf => Fin 0
  | PInf, Fin y => if Rlt_dec y 0 then NInf else PInf
  | NInf, Fin y => if Rlt_dec y 0 then PInf else NInf
  | PInf, PInf | PInf, NInf | NInf, PInf | NInf, NInf => NaN
  end.
Definition xlt (a b : xr) : bool :=
  match a, b with
  | NaN, _ | _, NaN => false
  | Fin x, Fin y => Rltb x y
  | NInf, NInf | PInf, _ | _, NInf => false
  | NInf, _ | _, PInf => true
  end.
Definition xeqb (a b : xr) : bool :=
  match a, b with
  | Fin x, Fin y => Reqb x y
  | PInf, PInf | NInf, NInf => true
  | _, _ => false
  end.
(** std::pow.  Finite arguments are exact; pow(x,0)=1 for every x; a negative
    base with a non-integer exponent is NaN; 0 to a negative power is +inf.
    Simplification: an infinite exponent gives NaN here, while IEEE gives 0, 1
    or infinity; no theorem depends on that case. *)
Definition xpow (a b : xr) : xr :=
  match b with
  | Fin y =>
    if Req_EM_T y 0 then Fin 1 else
    match a with
    | Fin x =>
      if Rlt_dec 0 x then Fin (Rpow x y)
      else if Req_EM_T x 0 then (if Rlt_dec 0 y then Fin 0 else PInf)
      else match Rpow_int x y with Some r => Fin r | None => NaN end
    | PInf => if Rlt_dec 0 y then PInf else Fin 0
    | NInf => if Rlt_dec 0 y then
                (if Req_EM_T (IZR (Int_part y)) y then (if Z.odd (Int_part y) then NInf else PInf) else PInf)
              else Fin 0
    | NaN => NaN
    end
  | _ => NaN
  end.
Definition xexp (a : xr) : xr :=
  match a with Fin x => Fin (exp x) | PInf => PInf | NInf => Fin 0 | NaN => NaN end.
(** sin/cos of an infinity are NaN. *)
Definition xlift (f : R -> R) (a : xr) : xr := match a with Fin x => Fin (f x) | _ => NaN end.
(** asin/acos outside [-1,1] are NaN. *)
Definition xarc (f : R -> R) (a : xr) : xr :=
  match a with
  | Fin x => if Rlt_dec x (-1) then NaN else if Rlt_dec 1 x then NaN else Fin (f x)
  | _ => NaN
  end.
(** Simplification: atan2 of an infinite argument is NaN here. *)
Definition xatan2 (a b : xr) : xr :=
  match a, b with Fin y, Fin x => Fin (Ratan2 y x) | _, _ => NaN end.
Definition xtrunc (a : xr) : option Z := match a with Fin x => Rtoint x | _ => None end.

#[global] Instance xr_num : Num xr := {|
  lit := fun n d => Fin (Rlit n d);
  nadd := xadd; nsub := xsub; nmul := xmul; ndiv := xdiv; nopp := xopp; nabs := xabs;
  nlt := xlt; neqb := xeqb; npow := xpow; nexp := xexp;
  nsin := xlift sin; ncos := xlift cos; nasin := xarc asin; nacos := xarc acos;
  natan2 := xatan2; ntrunc := xtrunc;
  ndblmin := Fin Rdblmin; ndblmax := Fin Rdblmax |}.

(** "[x] is a finite number". *)
Definition finite (x : xr) : Prop := exists r, x = Fin r.
