(* C73: round trips of wet states with the region left to the library. *)
From Coq Require Import ZArith List Reals Lra.
From Verif Require Import Num RealInst Constant Api Spec SpecReal SpecThermo SpecMap WetTrip.
Import ListNotations.
Open Scope R_scope.

Theorem C73_p : forall fuel f o w p x, In (f, o) [(PH, OH); (PS, OS); (PV, OV)] -> 0.000611213 < p <= p_corner -> 0 < x < 1 -> w <> OR ->
  @call RArith fuel f p (@px RArith p x o) (from_i32 w) = Some (@px RArith p x w).
Proof. exact trip_p. Qed.
Print Assumptions C73_p.

Theorem C73_t : forall fuel f o w t x, In (f, o) [(TS, OS); (TV, OV)] -> 0 <= t <= 350 -> 0 <= x <= 1 -> w <> OR ->
  @call RArith fuel f t (@tx RArith t x o) (from_i32 w) = Some (@tx RArith t x w).
Proof. exact trip_t. Qed.
Print Assumptions C73_t.

Example trip_example : In (PV, OV) [(PH, OH); (PS, OS); (PV, OV)] /\ 0.000611213 < 1 <= p_corner /\ In (TS, OS) [(TS, OS); (TV, OV)] /\ 0 <= 100 <= 350 /\ 0 < 0.25 < 1 /\ OU <> OR.
Proof. unfold p_corner. repeat split; try lra; cbn; auto. discriminate. Qed.

(* th: full statement as C73_t, false below 235 C (C73_enthalpy_refuted) *)
Theorem C73_enthalpy_hot : forall fuel w t x, 250 <= t <= 350 -> 0 <= x <= 1 -> w <> OR ->
  @call RArith fuel TH t (@tx RArith t x OH) (from_i32 w) = Some (@tx RArith t x w).
Proof. exact trip_th_hot. Qed.
Print Assumptions C73_enthalpy_hot.
Theorem C73_enthalpy_cold : forall fuel w t x, 0 <= t < 250 -> 0 <= x <= 1 -> ptR 1 OH 100 t < @tx RArith t x OH -> w <> OR ->
  @call RArith fuel TH t (@tx RArith t x OH) (from_i32 w) = Some (@tx RArith t x w).
Proof. exact trip_th_cold. Qed.
Print Assumptions C73_enthalpy_cold.
Example enthalpy_example : 0 <= 100 < 250 /\ ptR 1 OH 100 100 < @tx RArith 100 1 OH.
Proof. split; [lra|apply dry_end; lra]. Qed.

(* a wet state of positive quality comes back with quality 0, at every temperature up to 235 C *)
Theorem C73_enthalpy_refuted : forall fuel t, 0 <= t <= 235 ->
  exists x, 0 < x < 1 /\ @call RArith fuel TH t (@tx RArith t x OH) (from_i32 OX) = Some 0.
Proof. exact trip_th_zero. Qed.
Print Assumptions C73_enthalpy_refuted.
