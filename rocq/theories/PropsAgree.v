(* C74: px and tx describe the same saturated states. *)
From Coq Require Import ZArith Reals Lra.
From Verif Require Import Num RealInst Constant Api Spec SpecReal SpecSub3 WetAgree.
Open Scope R_scope.

Theorem C74_t : forall t x w, 0 <= t <= 350 - 1e-10 \/ 350 < t <= 373.946 - 1e-5 -> 0 <= x <= 1 ->
  @px RArith (if97_psat (t + 273.15)) x w = @tx RArith t x w.
Proof. exact px_tx_all. Qed.
Print Assumptions C74_t.

Theorem C74_p : forall p x w, 0.00061121267745 <= p <= 16.5291642526045 \/ if97_psat 623.15 < p <= 22.0639 -> 0 <= x <= 1 ->
  @tx RArith (if97_tsat p - 273.15)%R x w = @px RArith p x w.
Proof. exact tx_px_all. Qed.
Print Assumptions C74_p.

Example agree_example : (0 <= 360 <= 350 - 1e-10 \/ 350 < 360 <= 373.946 - 1e-5) /\ (0.00061121267745 <= 1 <= 16.5291642526045 \/ if97_psat 623.15 < 1 <= 22.0639) /\ 0 <= 0.25 <= 1.
Proof. repeat split; try (right; lra); try (left; lra); lra. Qed.

(* the ends of the two ranges do not meet: at 647.096 K px rejects the saturation pressure tx returns,
   and at its lowest pressure px accepts a state whose temperature tx rejects *)
Theorem C74_high_refuted : forall x w, 0 <= x <= 1 ->
  @px RArith (if97_psat 647.096) x w = IZR INVALID_VALUE /\ @tx RArith 373.946 x OP = if97_psat 647.096.
Proof. exact top_end. Qed.
Print Assumptions C74_high_refuted.
Theorem C74_low_refuted : forall x, 0 <= x <= 1 ->
  @tx RArith (if97_tsat 0.000611212677444 - 273.15)%R x OP = IZR INVALID_VALUE /\ @px RArith 0.000611212677444 x OP = 0.000611212677444.
Proof. exact low_end. Qed.
Print Assumptions C74_low_refuted.
Example ends_example : 0 <= 0.5 <= 1. Proof. lra. Qed.
