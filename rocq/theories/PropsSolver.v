(* C40, C41: the iterative solvers *)
From Coq Require Import ZArith List Bool Reals Floats Lra.
From Verif Require Import Num Constant Algo Api RealInst FloatInst SpecWet SpecSolver Solver Bisect BisectPt.
Import ListNotations.

(* C40: the secant solver in its first variable.  Any arithmetic, any target function, any
   start, any accuracy and budget: it evaluates the target at most i_max times (its callers
   have evaluated the two start points), its result depends on the target at those points only,
   and it ends for one of the four reasons of [secant_end]. *)
Theorem C40_rtsec1 : forall {N : Arith} (fn : num -> num -> num) (c fr x1 x2 f1 f2 xacc : num) (i_max : Z),
  exists evals,
    secant_end positive_guess (fun x => fn x c) fr x1 x2 f1 f2 xacc i_max evals (rtsec1 fn c fr x1 x2 f1 f2 xacc i_max) /\
    forall fn', (forall x, In x evals -> fn' x c = fn x c) ->
      rtsec1 fn' c fr x1 x2 f1 f2 xacc i_max = rtsec1 fn c fr x1 x2 f1 f2 xacc i_max.
Proof. exact @rtsec1_spec. Qed.
Print Assumptions C40_rtsec1.

(* the same for the second variable, where guesses are not clipped *)
Theorem C40_rtsec2 : forall {N : Arith} (fn : num -> num -> num) (c fr x1 x2 f1 f2 xacc : num) (i_max : Z),
  exists evals,
    secant_end any_guess (fun x => fn c x) fr x1 x2 f1 f2 xacc i_max evals (rtsec2 fn c fr x1 x2 f1 f2 xacc i_max) /\
    forall fn', (forall x, In x evals -> fn' c x = fn c x) ->
      rtsec2 fn' c fr x1 x2 f1 f2 xacc i_max = rtsec2 fn c fr x1 x2 f1 f2 xacc i_max.
Proof. exact @rtsec2_spec. Qed.
Print Assumptions C40_rtsec2.

(* the square root of 2 by the solver, stopped by the accuracy, and with a budget of one step *)
Example C40_sqrt2 :
  PrimFloat.ltb (PrimFloat.abs (@rtsec1 (FArith RefLibm) (fun x _ => x * x)%float 0%float 2%float 1%float 2%float 1%float (-2)%float (float_of_dec 1e-8) 100 - float_of_dec 1.4142135623730951)) (float_of_dec 1e-12) = true.
Proof. vm_compute. reflexivity. Qed.
Example C40_budget : @rtsec1 (FArith RefLibm) (fun x _ => x * x)%float 0%float 2%float 1%float 2%float 1%float (-2)%float (float_of_dec 1e-8) 1 = float_of_dec 1.3333333333333333.
Proof. vm_compute. reflexivity. Qed.
Example C40_clip : @rtsec1 (FArith RefLibm) (fun x _ => x)%float 0%float (-5)%float 1%float 2%float (-6)%float (-7)%float (float_of_dec 1e-8) 1 = float_of_dec 0.000001.
Proof. vm_compute. reflexivity. Qed.

(* C41: in binary64, whatever the maths library, a temperature returned by hx is in
   [0, 373.946] C, for every h and x the function does not reject (NaN included) *)
Theorem C41_hx_range : forall (L : Libm) (h x : float),
  (@ltb (FArith L) H_MAX4 h || @ltb (FArith L) h H_MIN4 || PrimFloat.ltb 1 x || PrimFloat.ltb x 0)%bool = false ->
  within 0 (float_of_dec 373.946) (@hx (FArith L) h x OT).
Proof. exact hx_temp. Qed.
Print Assumptions C41_hx_range.

Theorem C41_sx_range : forall (L : Libm) (s x : float),
  (@ltb (FArith L) S_MAX4 s || @ltb (FArith L) s S_MIN4 || PrimFloat.ltb 1 x || PrimFloat.ltb x 0)%bool = false ->
  within 0 (float_of_dec 373.946) (@sx (FArith L) s x OT).
Proof. exact sx_temp. Qed.
Print Assumptions C41_sx_range.

Example C41_hx_in : (@ltb (FArith RefLibm) H_MAX4 1500%float || @ltb (FArith RefLibm) 1500%float H_MIN4 || PrimFloat.ltb 1 0.5 || PrimFloat.ltb 0.5 0)%bool = false.
Proof. vm_compute. reflexivity. Qed.
Example C41_sx_in : (@ltb (FArith RefLibm) S_MAX4 4%float || @ltb (FArith RefLibm) 4%float S_MIN4 || PrimFloat.ltb 1 0.5 || PrimFloat.ltb 0.5 0)%bool = false.
Proof. vm_compute. reflexivity. Qed.

Open Scope R_scope.
(* in exact arithmetic the temperature is accepted by the tolerance or is an end of a bracket
   halved 1000 times that keeps the sign change *)
Theorem C41_hx_bracket : forall h x, 0.38039218566765925 <= h <= 2803.2738880203456 -> 0 <= x <= 1 ->
  bisected (quality_error OH h x) 1e-5 1000 (@hx RArith h x OT).
Proof. exact hx_real. Qed.
Print Assumptions C41_hx_bracket.

Theorem C41_sx_bracket : forall s x, 0.33567511183921145 <= s <= 9.153081306725117 -> 0 <= x <= 1 ->
  bisected (quality_error OS s x) 1e-5 1000 (@sx RArith s x OT).
Proof. exact sx_real. Qed.
Print Assumptions C41_sx_bracket.

Example C41_point : 0.38039218566765925 <= 1500 <= 2803.2738880203456 /\ 0.33567511183921145 <= 4 <= 9.153081306725117 /\ 0 <= 1/2 <= 1.
Proof. lra. Qed.

(* an accepted temperature has the given enthalpy or entropy, within 1e-5 of the evaporation
   difference at that temperature *)
Theorem C41_accepted : forall o y x t e, wet_T (t + 273.15) -> 0 <= x <= 1 -> In o (OV :: energy_ids) ->
  @tx RArith t 0 o <> @tx RArith t 1 o ->
  Rabs (quality_error o y x t) < e -> Rabs (@tx RArith t x o - y) < e * Rabs (@tx RArith t 1 o - @tx RArith t 0 o).
Proof. exact quality_error_close. Qed.
Print Assumptions C41_accepted.
Example C41_accepted_100 : wet_T (100 + 273.15) /\ @tx RArith 100 0 OH <> @tx RArith 100 1 OH /\
  Rabs (quality_error OH (@tx RArith 100 (1/2)%R OH) (1/2) 100) < 1e-5.
Proof. exact accepted_100. Qed.
