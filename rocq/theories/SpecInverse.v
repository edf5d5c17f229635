(* Specification of the clamped inverse functions *)
From Coq Require Import ZArith List Bool Floats.
From Verif Require Import Num Constant Api Spec FloatInst SpecSolver.
Import ListNotations.

(* a number between lo and hi, or not a number *)
Definition within_or_nan (lo hi r : float) : Prop := PrimFloat.is_nan r = true \/ within lo hi r.

(* p is a pressure at which the library itself, asked for the second property of f at (p, t) in
   the given region, answers y exactly or within 1e-8 *)
Definition recovers (L : Libm) (f : api2) (region : Z) (t y p : float) : Prop :=
  exists v, @call (FArith L) 1 PT p t (from_pair (id2 f, region)) = Some v /\
    (PrimFloat.eqb y v = true \/ PrimFloat.ltb (PrimFloat.abs (y - v)) (float_of_dec 1e-8) = true).

(* the fourth power of a number in [0, 3] is in [0, 100] *)
Definition powi4_in (L : Libm) : Prop := forall x, within 0 3 x -> within 0 100 (l_powi L x 4).
