(* Specification of the iterative solvers: what a returned point satisfies. *)
From Coq Require Import ZArith List Bool Reals Floats.
From Verif Require Import Num Constant Api RealInst FloatInst.
Import ListNotations.

(* x is a number between a and b *)
Definition within (a b x : float) : Prop := PrimFloat.leb a x = true /\ PrimFloat.leb x b = true.

Section Any.
Context {N : Arith}.
Open Scope num_scope.

(* A secant search for a zero of fr - u from the points x1, x2 with residuals f1, f2 ended
   at r.  [evals] are the points at which u was evaluated, at most i_max.  The visited points
   are the worse start point, the better one, then evals; the last two are xl and r, with
   residuals fxl and frr.  The search ended because the residual is zero, the last two
   residuals agree, the budget is spent, or the last increment dx is within the accuracy.
   [clip] relates the increment's target to the guess made from it. *)
Definition secant_end (clip : num -> num -> Prop) (u : num -> num) (fr x1 x2 f1 f2 xacc : num) (i_max : Z)
    (evals : list num) (r : num) : Prop :=
  (length evals <= Z.to_nat i_max)%nat /\
  exists front xl fxl frr,
    (if nabs f1 <? nabs f2 then [(x2, f2); (x1, f1)] else [(x1, f1); (x2, f2)]) ++ map (fun x => (x, fr - u x)) evals
      = front ++ [(xl, fxl); (r, frr)] /\
    ((frr =? #0.0) = true \/ ((frr - fxl) =? #0.0) = true \/ length evals = Z.to_nat i_max \/
     exists dx, (nabs dx >? xacc) = false /\
       ((evals = [] /\ dx = (xl - r) * frr / (frr - fxl)) \/ (evals <> [] /\ clip (xl + dx) r))).

(* rtsec1 replaces a guess that is not positive by 0.000001 *)
Definition positive_guess (target guess : num) : Prop :=
  guess = if target <=? #0.0 then #0.000001 else target.
Definition any_guess (target guess : num) : Prop := guess = target.
End Any.

Open Scope R_scope.
(* how far the quality of the wet state at t (C) with property y is from x *)
Definition quality_error (o : Z) (y x t : R) : R :=
  (y - @tx RArith t 0 o) / (@tx RArith t 1 o - @tx RArith t 0 o) - x.

(* t comes from bisecting [0, 373.946] at most n times with tolerance tol: either the error is
   within the tolerance, or t is an end of an n times halved bracket, across which the error
   changes sign if it did at the start *)
Definition bisected (err : R -> R) (tol : R) (n : nat) (t : R) : Prop :=
  0 <= t <= 373.946 /\
  (Rabs (err t) < tol \/
   exists t0 t1, 0 <= t0 /\ t0 <= t1 /\ t1 <= 373.946 /\ t1 - t0 = 373.946 / 2 ^ n /\ (t = t0 \/ t = t1) /\
     (err 0 * err 373.946 < 0 -> err t0 * err t1 < 0)).
