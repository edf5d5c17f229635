(* Vocabulary for the region maps on isotherms and isobars: the region numbers answered by
   tv, th, ts and pv in exact arithmetic. *)
From Coq Require Import ZArith Reals.
From Verif Require Import Num RealInst Constant Api SpecMap.
Open Scope R_scope.

Definition tv_region (fuel : positive) (t v : R) : option R := @tv RArith fuel t v (from_i32 OR).
Definition th_region (fuel : positive) (t h : R) : option R := @th RArith fuel t h (from_i32 OR).
Definition ts_region (t s : R) : R := @ts RArith t s (from_i32 OR).
Definition pv_region (p v : R) : R := @pv RArith p v (from_i32 OR).

(* the pressures at which pv has both limits of the two-phase region, or none: above the
   pressure of the triple point as the code has it, and not between the saturation pressure at
   350 C and the rounded constant of the code, 5e-8 MPa higher *)
Definition pv_range (p : R) : Prop := 0.000611213 < p <= p_corner \/ 16.5291643 < p <= 100.

(* the entropies ts accepts at all *)
Definition s_range (s : R) : Prop := -0.008583 <= s <= 18.992.
