(* IAPWS-IF97 formulas over the reals, written from the release, not from the code.
   Used to state what the model computes in exact arithmetic. *)
From Coq Require Import ZArith Reals.
Open Scope R_scope.

(* saturation pressure, Eq. (30), MPa *)
Definition if97_psat (T : R) : R :=
  let th := T + -0.23855557567849 / (T - 650.17534844798) in
  let A := th^2 + 1167.0521452767 * th + -724213.16703206 in
  let B := -17.073846940092 * th^2 + 12020.824702470 * th + -3232555.0322333 in
  let C := 14.915108613530 * th^2 + -4823.2657361591 * th + 405113.40542057 in
  (2 * C / (- B + sqrt (B^2 - 4 * A * C)))^4.

(* boundary between regions 2 and 3, Eq. (5), MPa *)
Definition if97_b23 (T : R) : R :=
  348.05185628969 + -1.1671859879975 * T + 0.0010192970039326 * T^2.

(* the region of a single-phase state (Fig. 1 of the release) *)
Definition if97_region_R (p T : R) (r : Z) : Prop :=
  (r = 1%Z /\ 273.15 <= T <= 623.15 /\ if97_psat T <= p) \/
  (r = 2%Z /\ 273.15 <= T <= 623.15 /\ p < if97_psat T) \/
  (r = 2%Z /\ 623.15 < T <= 863.15 /\ p <= if97_b23 T) \/
  (r = 2%Z /\ 863.15 < T <= 1073.15) \/
  (r = 3%Z /\ 623.15 < T <= 863.15 /\ if97_b23 T < p) \/
  (r = 5%Z /\ 1073.15 < T <= 2273.15 /\ p <= 50).
