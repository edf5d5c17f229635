(* Vocabulary for the stability, monotonicity and round trip properties: the states of a
   region by temperature in degrees Celsius and pressure in MPa, and answers in exact arithmetic. *)
From Coq Require Import ZArith Reals.
From Verif Require Import Num RealInst Api Spec SpecReal.
Open Scope R_scope.

(* region 1, the liquid: 0 to 350 C, from the saturation line to 100 MPa *)
Definition liquid (p t : R) : Prop := 0 <= t <= 350 /\ if97_psat (t + 273.15) <= p <= 100.

(* answers of ph and ps with the region found by the library *)
Definition phR (o : Z) (p h : R) : R := @ph RArith p h (from_i32 o).
Definition psR (o : Z) (p s : R) : R := @ps RArith p s (from_i32 o).
