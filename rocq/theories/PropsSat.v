(* C32, C33, C34: saturation line and B23 boundary, in exact arithmetic.
   if97_psat is Eq. (30) of the release (SpecReal.v). *)
From Coq Require Import ZArith List Bool Reals Lra.
From Verif Require Import Num Constant Boundaries Api RealInst SpecReal SatApi.
Open Scope R_scope.

(* C32: temperature -> pressure -> temperature, wherever the first answer is not above the critical pressure *)
Theorem C32_round_T : forall t x : R, 0 <= x <= 1 -> 273.15 <= t + 273.15 <= 647.096 -> @tx RArith t x OP <= 22.064 ->
  @px RArith (@tx RArith t x OP) x OT = t.
Proof. exact round_T. Qed.
Print Assumptions C32_round_T.
(* which is the case up to 1.2e-9 K below the critical temperature *)
Theorem C32_round_T_range : forall t x : R, 0 <= x <= 1 -> 273.15 <= t + 273.15 <= 647.0959999988 -> @tx RArith t x OP <= 22.064.
Proof. exact round_T_range. Qed.
Print Assumptions C32_round_T_range.
Example C32_T_example : (0 <= 0.5 <= 1 /\ 273.15 <= 100 + 273.15 <= 647.0959999988)%R. Proof. lra. Qed.
(* pressure -> temperature -> pressure, from the saturation pressure at 273.15 K on *)
Theorem C32_round_p : forall p x : R, 0 <= x <= 1 -> if97_psat 273.15 <= p <= 22.064 -> @tx RArith (@px RArith p x OT) x OP = p.
Proof. exact round_p. Qed.
Print Assumptions C32_round_p.
Example C32_p_example : (0 <= 0.5 <= 1 /\ if97_psat 273.15 <= 1 <= 22.064)%R.
Proof. pose proof SatInv.psat_273. lra. Qed.
(* full statement, false at the two ends: the equation gives 22.06400000032 MPa at the critical
   temperature, and the lowest accepted pressure has a saturation temperature below 273.15 K;
   both second calls answer -9999 *)
Theorem C32_round_T_refuted : forall x : R, 0 <= x <= 1 ->
  exists t, 273.15 <= t + 273.15 <= 647.096 /\ @px RArith (@tx RArith t x OP) x OT = -9999.
Proof. exact round_T_refuted. Qed.
Print Assumptions C32_round_T_refuted.
Theorem C32_round_p_refuted : forall x : R, 0 <= x <= 1 ->
  exists p, 0.000611212677444 <= p <= 22.064 /\ @tx RArith (@px RArith p x OT) x OP = -9999.
Proof. exact round_p_refuted. Qed.
Print Assumptions C32_round_p_refuted.

(* C33 *)
Theorem C33_increasing : forall t1 t2 x : R, 0 <= x <= 1 -> 273.15 <= t1 + 273.15 -> t1 < t2 -> t2 + 273.15 <= 647.096 ->
  @tx RArith t1 x OP < @tx RArith t2 x OP.
Proof. exact tx_mono. Qed.
Print Assumptions C33_increasing.
Example C33_example : (0 <= 1 <= 1 /\ 273.15 <= 10 + 273.15 /\ 10 < 20 /\ 20 + 273.15 <= 647.096)%R. Proof. lra. Qed.
Theorem C33_increasing_p : forall p1 p2 x : R, 0 <= x <= 1 -> if97_psat 273.15 <= p1 -> p1 < p2 -> p2 <= 22.064 ->
  @px RArith p1 x OT < @px RArith p2 x OT.
Proof. exact px_mono. Qed.
Print Assumptions C33_increasing_p.

(* C34: the tolerances are those of the published coefficients *)
Theorem C34_pTp : forall p : R, 16.5 <= p <= 100 -> Rabs (@B23_T2p RArith (@B23_p2T RArith p) - p) <= 2.3e-11.
Proof. exact b23_pTp. Qed.
Print Assumptions C34_pTp.
Theorem C34_TpT : forall T : R, 623.15 <= T <= 863.15 -> Rabs (@B23_p2T RArith (@B23_T2p RArith T) - T) <= 1.7e-10.
Proof. exact b23_TpT. Qed.
Print Assumptions C34_TpT.
Example C34_example : (16.5 <= 50 <= 100 /\ 623.15 <= 700 <= 863.15)%R. Proof. lra. Qed.
