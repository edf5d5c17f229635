(* Vocabulary for the thermodynamic identities (C21-C31): property values of single
   phase states in exact arithmetic, with the region given by the caller, and the
   domain in which the formulas of the region are defined. *)
From Coq Require Import ZArith List Bool Reals.
From Verif Require Import Num RealInst Constant Api Spec.
Open Scope R_scope.

(* pt(p, t, (o, r)) in exact arithmetic; p in MPa, t in degrees Celsius *)
Definition ptR (r o : Z) (p t : R) : R := @pt RArith p t (from_pair (o, r)).

(* tv(t, v, (o, 3)) in exact arithmetic *)
Definition tvR (o : Z) (t v : R) : R :=
  match @tv RArith 1 t v (from_pair (o, 3%Z)) with Some x => x | None => 0 end.

(* Where the fundamental equation of the region is smooth: positive pressure and
   absolute temperature; in region 1 the reduced pressure 7.1 - p/16.53 and the
   reduced temperature 1386/T - 1.222 are positive, in region 2 540/T - 0.5 is. *)
Definition formula_domain (r : Z) (p t : R) : Prop :=
  0 < p /\ 0 < t + 273.15 /\
  (r = 1%Z /\ p < 7.1 * 16.53 /\ 1.222 * (t + 273.15) < 1386 \/
   r = 2%Z /\ t + 273.15 < 1080 \/
   r = 5%Z).

(* region 3 is given by temperature and volume *)
Definition formula_domain3 (t v : R) : Prop := 0 < t + 273.15 /\ 0 < v.

(* the isochoric heat capacity that follows from OCP, OV, OEC and OKT by the Mayer
   relation c_p - c_v = T v alpha^2 / kappa_T (the factor 1000 converts MPa m3 to kJ) *)
Definition cv_mayer (r : Z) (p t : R) : R :=
  ptR r OCP p t - 1000 * (t + 273.15) * ptR r OV p t * ptR r OEC p t ^ 2 / ptR r OKT p t.
