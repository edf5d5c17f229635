(* Vocabulary of the two-phase properties (C18, C35, C36). *)
From Coq Require Import ZArith List Reals.
From Verif Require Import Num Constant SpecReal.
Import ListNotations.

Section Any.
Context {N : Arith}.
Open Scope num_scope.
(* the literals 0.0 and 1.0 compare as they should *)
Definition lits01 : Prop := (#0.0 =? #0.0) = true /\ (#1.0 =? #0.0) = false /\ (#1.0 =? #1.0) = true /\
  (#0.0 >? #1.0) = false /\ (#0.0 <? #0.0) = false /\ (#1.0 >? #1.0) = false.
(* p is between the lowest pressure and the critical pressure, x between 0 and 1 *)
Definition in_px (p x : num) : Prop := (p >? P_MAX4) = false /\ (p <? P_MIN4) = false /\ (x >? #1.0) = false /\ (x <? #0.0) = false.
Definition in_tx (T x : num) : Prop := (T >? T_MAX4) = false /\ (T <? T_MIN4) = false /\ (x >? #1.0) = false /\ (x <? #0.0) = false.
(* x is neither 0 nor 1 *)
Definition inner (x : num) : Prop := (x =? #0.0) = false /\ (x =? #1.0) = false.
End Any.

Open Scope R_scope.

(* the pressures for which the library evaluates both saturated states and the mixture with
   the same region's equations: everything between P_MIN and the critical pressure except
   the sliver between its constant Ps_623 and psat(623.15 K), and 1e-6 MPa below the
   critical pressure *)
Definition wet_p (p : R) : Prop :=
  0.000611212677444 <= p <= 16.5291642526045 \/ if97_psat 623.15 < p <= 22.064 - 1e-6.
(* the same for temperatures *)
Definition wet_T (T : R) : Prop := 273.15 <= T <= 647.096 - 1e-6.

(* y lies on the straight line from y0 (x = 0) to y1 (x = 1), hence between them *)
Definition lever (x y0 y1 y : R) : Prop := y = y0 + x * (y1 - y0) /\ Rmin y0 y1 <= y <= Rmax y0 y1.

(* output ids mixed by the library: enthalpy, entropy, internal energy, Helmholtz and Gibbs
   energy, exergy *)
Definition energy_ids : list Z := [OH; OS; OU; OF; OG; OE].

(* saturated liquid (0) and steam (1) differ by visible amounts: kJ/kg, kJ/(kg K), m3/kg *)
Definition gap (h0 h1 s0 s1 v0 v1 : R) : Prop := h0 + 50 <= h1 /\ s0 + 0.3 <= s1 /\ 0.5e-3 <= v0 /\ v0 + 4e-3 <= v1.
