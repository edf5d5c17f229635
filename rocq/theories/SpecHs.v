(* The states of the regions 1 and 2 kept clear of the boundaries. *)
From Coq Require Import ZArith Reals.
From Verif Require Import Spec SpecReal.
Open Scope R_scope.

(* from 0.013 percent above the lowest saturation pressure to 99.8 MPa and from 0.1 C to
   799 C; 0.1 K above the saturation line; 0.1 percent below the pressure of the boundary
   with region 3 *)
Definition dry (p t : R) : Prop :=
  1.00013 * if97_psat 273.15 <= p <= 99.8 /\ 0.1 <= t <= 799 /\
  (t <= 350 -> p <= if97_psat (t + 273.15 - 0.1)) /\
  (350 < t <= 590 -> 1.001 * p <= if97_b23 (t + 273.15)).

(* the states of region 1 up to 310 C, from 5 kPa above the saturation line to 99.8 MPa *)
Definition pressed (p t : R) : Prop := 0 <= t <= 310 /\ if97_psat (t + 273.15) + 0.005 <= p <= 99.8.
