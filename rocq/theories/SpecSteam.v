(* The states of region 2 by temperature in degrees Celsius and pressure in MPa. *)
From Coq Require Import ZArith Reals.
From Verif Require Import Spec SpecReal.
Open Scope R_scope.

(* region 2, the vapour: 0 to 800 C, up to the saturation line, up to the boundary with
   region 3 between 350 and 590 C, up to 100 MPa above *)
Definition vapour (p t : R) : Prop :=
  0 <= t <= 800 /\ 0 < p <= 100 /\
  (t <= 350 -> p <= if97_psat (t + 273.15)) /\
  (350 < t <= 590 -> p <= if97_b23 (t + 273.15)).

(* the boundary of regions 2 and 3 solved for the temperature (Eq. 6 of the release); the
   coefficients are rounded, so that Eq. 5 and Eq. 6 agree only to about 1e-10 K *)
Definition if97_b23T (p : R) : R := 572.54459862746 + sqrt ((p - 13.918839778870) / 0.0010192970039326).
(* on the side of region 2 by Eq. 6 too *)
Definition beyond23 (p t : R) : Prop := 16.5291642526045 < p -> if97_b23T p <= t + 273.15.
