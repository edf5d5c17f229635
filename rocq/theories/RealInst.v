(* The real-number instance of the arithmetic: the functions the formulas denote,
   with exact arithmetic.  Theorems about analytic identities (derivatives,
   inverses, monotonicity) are stated here.

   Totalised operations: x / 0, ln of a non-positive number and sqrt of a negative
   number follow the standard library's conventions; theorems that use them state
   the domain.  [powf] follows IEEE pow on positive bases and, for other bases, on
   integral exponents; elsewhere it is 0 (IEEE: NaN). *)
From Coq Require Import ZArith Reals Bool.
From Verif Require Import Num.
Open Scope R_scope.

Definition R_of_dec (d : dec) : R :=
  match de d with
  | Z0 => IZR (dm d)
  | Zpos k => IZR (dm d * Z.pow_pos 10 k)
  | Zneg k => IZR (dm d) / IZR (Z.pow_pos 10 k)
  end.

Definition Rlt_b (x y : R) : bool := if Rlt_dec x y then true else false.
Definition Rle_b (x y : R) : bool := if Rle_dec x y then true else false.
Definition Req_b (x y : R) : bool := if Req_EM_T x y then true else false.

Definition R_powf (x y : R) : R :=
  if Rlt_dec 0 x then Rpower x y
  else if Req_EM_T y (IZR (Int_part y)) then powerRZ x (Int_part y)
  else 0.

Definition RArith : Arith := {|
  num := R;
  add := Rplus; sub := Rminus; mul := Rmult; div := Rdiv;
  opp := Ropp; nabs := Rabs; nsqrt := sqrt;
  powi := powerRZ; powf := R_powf; nexp := exp; nln := ln;
  ltb := Rlt_b; leb := Rle_b; eqb := Req_b;
  lit := R_of_dec; ofZ := IZR |}.
