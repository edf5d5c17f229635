(* Property theorems about the region maps of ph and ps (C58, C59): exactly which enthalpies
   and entropies of an isobar are given to which region, in exact arithmetic. *)
From Coq Require Import ZArith Reals Lra.
From Interval Require Import Tactic.
From Verif Require Import Num RealInst Constant Boundaries Region Api Spec SpecReal SpecThermo SpecStable SpecSteam SpecMap SpecSub3 SpecGas Map12 Gap25.
Open Scope R_scope.

(* isobars below and above the corner, and the limits of the two regions on them *)
Example isobar_example : (if97_psat 273.15 <= 1 <= 100 /\ hottest_liquid 1 = if97_tsat 1 /\ coldest_vapour 1 = if97_tsat 1) /\
  (if97_psat 273.15 <= 20 <= 100 /\ hottest_liquid 20 = 623.15 /\ coldest_vapour 20 = if97_b23T 20) /\ if97_psat 273.15 <= 100 <= 100.
Proof. exact isobar_ex. Qed.

(* C58 *)
Theorem C58_liquid : forall p, if97_psat 273.15 <= p <= 100 -> forall h,
  phR OR p h = 1 <-> exists t, 0 <= t /\ t + 273.15 <= hottest_liquid p /\ h = ptR 1 OH p t.
Proof. exact ph_is1. Qed.
Print Assumptions C58_liquid.
Theorem C58_vapour : forall p, if97_psat 273.15 <= p <= 100 -> forall h,
  phR OR p h = 2 <-> exists t, coldest_vapour p <= t + 273.15 /\ t <= 800 /\ h = ptR 2 OH p t.
Proof. exact ph_is2. Qed.
Print Assumptions C58_vapour.
(* what lies between is wet or supercritical, what lies above is region 5 up to 50 MPa *)
Theorem C58_rest : forall p, if97_psat 273.15 <= p <= 100 -> forall h,
  let b := ptR 1 OH p (hottest_liquid p - 273.15) in let c := ptR 2 OH p (coldest_vapour p - 273.15) in
  (phR OR p h = 3 <-> p_corner < p /\ b < h < c /\ (22.064 <= p \/ @h2p_sat_reg3 RArith h <= p)) /\
  (phR OR p h = 4 <-> b < h < c /\ (p <= p_corner \/ (p < 22.064 /\ p < @h2p_sat_reg3 RArith h))) /\
  (phR OR p h = 5 <-> p <= 50 /\ ptR 2 OH p 800 < h <= ptR 5 OH p 2000) /\
  (phR OR p h = IZR INVALID_VALUE <-> h < ptR 1 OH p 0 \/ (ptR 2 OH p 800 < h /\ (50 < p \/ ptR 5 OH p 2000 < h))).
Proof. exact ph_rest. Qed.
Print Assumptions C58_rest.
(* the equations of regions 2 and 5 differ at 800 C by up to 0.1 kJ/kg; from 800.1 C on the
   states of region 5 are found, just above 800 C they are taken for region 2 *)
Theorem C58_hot : forall p t, hot_gas p t -> if97_psat 273.15 <= p -> 800.1 <= t -> phR OR p (ptR 5 OH p t) = 5.
Proof. exact ph_map5. Qed.
Print Assumptions C58_hot.
Example hot_example : hot_gas 10 1000 /\ if97_psat 273.15 <= 10 /\ 800.2 <= 1000.
Proof. pose proof (proj1 (proj2 ph_edge5)). unfold hot_gas. lra. Qed.
Theorem C58_hot_refuted : exists p t, hot_gas p t /\ 800 < t /\ if97_psat 273.15 <= p /\ phR OR p (ptR 5 OH p t) = 2.
Proof. exact ph_edge5_ex. Qed.
Print Assumptions C58_hot_refuted.

(* C59 *)
Theorem C59_liquid : forall p, if97_psat 273.15 <= p <= 100 -> forall s,
  psR OR p s = 1 <-> exists t, 0 <= t /\ t + 273.15 <= hottest_liquid p /\ s = ptR 1 OS p t.
Proof. exact ps_is1. Qed.
Print Assumptions C59_liquid.
Theorem C59_vapour : forall p, if97_psat 273.15 <= p <= 100 -> forall s,
  psR OR p s = 2 <-> exists t, coldest_vapour p <= t + 273.15 /\ t <= 800 /\ s = ptR 2 OS p t.
Proof. exact ps_is2. Qed.
Print Assumptions C59_vapour.
Theorem C59_rest : forall p, if97_psat 273.15 <= p <= 100 -> forall s,
  let b := ptR 1 OS p (hottest_liquid p - 273.15) in let c := ptR 2 OS p (coldest_vapour p - 273.15) in
  (psR OR p s = 3 <-> p_corner < p /\ b < s < c /\ (22.064 <= p \/ @s2p_sat_reg3 RArith s <= p)) /\
  (psR OR p s = 4 <-> b < s < c /\ (p <= p_corner \/ (p < 22.064 /\ p < @s2p_sat_reg3 RArith s))) /\
  (psR OR p s = 5 <-> p <= 50 /\ ptR 2 OS p 800 < s <= ptR 5 OS p 2000) /\
  (psR OR p s = IZR INVALID_VALUE <-> s < ptR 1 OS p 0 \/ (ptR 2 OS p 800 < s /\ (50 < p \/ ptR 5 OS p 2000 < s))).
Proof. exact ps_rest. Qed.
Print Assumptions C59_rest.
Theorem C59_hot : forall p t, hot_gas p t -> if97_psat 273.15 <= p -> 800.2 <= t -> psR OR p (ptR 5 OS p t) = 5.
Proof. exact ps_map5. Qed.
Print Assumptions C59_hot.
