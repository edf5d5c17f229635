(* The binary64 instance of the arithmetic: Rust's f64.

   + - * / sqrt abs and the comparisons are the kernel's primitive floats (IEEE 754
   binary64, round to nearest even), which is what Rust specifies for f64.
   Literals are correctly rounded, as rustc does.  powi, powf, exp and ln are
   implementation-defined in Rust (compiler builtins / the platform libm), so they
   are fields of a record [Libm]; a theorem about the binary64 model quantifies over
   it. *)
From Coq Require Import ZArith Bool Floats SpecFloat.
From Verif Require Import Num.

Record Libm := {
  l_powi : float -> Z -> float;
  l_powf : float -> float -> float;
  l_exp : float -> float;
  l_ln : float -> float }.

(* correctly rounded value of (-1)^s * m * 10^e, as a binary64 *)
Definition sf_of_pos (s : bool) (m : positive) (e : Z) : spec_float :=
  match e with
  | Z0 => binary_round FloatOps.prec FloatOps.emax s m 0
  | Zpos k => binary_round FloatOps.prec FloatOps.emax s (m * 10 ^ k)%positive 0
  | Zneg k =>
      let '(mz, ez, l) := SFdiv_core_binary FloatOps.prec FloatOps.emax (Zpos m) 0 (Zpos (10 ^ k)%positive) 0 in
      binary_round_aux FloatOps.prec FloatOps.emax s mz ez l
  end.

Definition sf_of_dec (d : dec) : spec_float :=
  match dm d with
  | Z0 => S754_zero false
  | Zpos m => sf_of_pos false m (de d)
  | Zneg m => sf_of_pos true m (de d)
  end.

Definition float_of_dec (d : dec) : float := SF2Prim (sf_of_dec d).
Definition float_of_Z (z : Z) : float := float_of_dec (Dec z 0).

Definition FArith (L : Libm) : Arith := {|
  num := float;
  add := PrimFloat.add; sub := PrimFloat.sub; mul := PrimFloat.mul; div := PrimFloat.div;
  opp := PrimFloat.opp; nabs := PrimFloat.abs; nsqrt := PrimFloat.sqrt;
  powi := l_powi L; powf := l_powf L; nexp := l_exp L; nln := l_ln L;
  ltb := PrimFloat.ltb; leb := PrimFloat.leb; eqb := PrimFloat.eqb;
  lit := float_of_dec; ofZ := float_of_Z |}.

(* A concrete Libm, used only for examples and tests.  powi is the repeated
   squaring of compiler-rt's __powidf2; exp, ln and powf are series good to about
   1e-15, not a transcription of any platform libm. *)
Fixpoint powi_pos (a : float) (b : positive) (r : float) : float :=
  match b with
  | xH => r * a
  | xO b' => powi_pos (a * a) b' r
  | xI b' => powi_pos (a * a) b' (r * a)
  end%float.

Definition ref_powi (a : float) (b : Z) : float :=
  match b with
  | Z0 => 1
  | Zpos k => powi_pos a k 1
  | Zneg k => 1 / powi_pos a k 1
  end%float.

Fixpoint exp_taylor (n : nat) (k x acc term : float) : float :=
  match n with
  | O => acc
  | S n' => let term := (term * x / k)%float in exp_taylor n' (k + 1)%float x (acc + term)%float term
  end.

Fixpoint square_n (n : nat) (x : float) : float :=
  match n with O => x | S n' => square_n n' (x * x)%float end.

Definition ref_exp (x : float) : float :=
  square_n 6 (exp_taylor 16 1 (x / 64) 1 1)%float.

Fixpoint ln_newton (n : nat) (x y : float) : float :=
  match n with
  | O => y
  | S n' =>
      let e := ref_exp y in
      ln_newton n' x (y + 2 * (x - e) / (x + e))%float
  end.

Definition ref_ln (x : float) : float :=
  if PrimFloat.leb x 0 then nan
  else
  let '(m, e) := Z.frexp x in
  (ln_newton 3 m (m - 1) + float_of_Z e * 0x1.62e42fefa39efp-1)%float.

(* as IEEE pow: a negative base needs an integral exponent *)
Definition ref_powf (x y : float) : float :=
  if PrimFloat.eqb y 1 then x
  else if PrimFloat.eqb y 2 then (x * x)%float
  else if PrimFloat.eqb y 4 then let s := (x * x)%float in (s * s)%float
  else if PrimFloat.eqb y 0.5 then PrimFloat.sqrt x
  else if PrimFloat.eqb y 0.25 then PrimFloat.sqrt (PrimFloat.sqrt x)
  else if PrimFloat.eqb x 0 then 0%float
  else ref_exp (y * ref_ln x)%float.

Definition RefLibm : Libm :=
  {| l_powi := ref_powi; l_powf := ref_powf; l_exp := ref_exp; l_ln := ref_ln |}.
