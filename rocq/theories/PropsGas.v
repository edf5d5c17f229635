(* Property theorems about region 5 (C60, C61): stability and monotonicity, in exact
   arithmetic, for every state of the region. *)
From Coq Require Import ZArith Reals Lra.
From Verif Require Import Num RealInst Constant Api Spec SpecReal SpecThermo SpecGas SpecStable Stab5 Gap25.
Open Scope R_scope.

Example gas_example : hot_gas 10 1000 /\ hot_gas 50 2000 /\ hot_gas 0.000001 800.
Proof. unfold hot_gas. lra. Qed.

(* C60; the heat capacity at constant volume is the one of the Mayer relation, because the
   one the library answers in region 5 is wrong (C26) *)
Theorem C60_gas : forall p t, hot_gas p t ->
  0 < ptR 5 OV p t /\ 0 < ptR 5 OKT p t /\ ptR 5 ODVDP p t < 0 /\ 2 < ptR 5 OCP p t /\
  0 < cv_mayer 5 p t <= ptR 5 OCP p t /\ 0 < ptR 5 OW p t.
Proof.
  exact (fun p t W => let S := gas_stable p t W in conj (proj1 S) (conj (kt_pos5 p t W) (conj (proj1 (proj2 S))
    (conj (cp5_lo p t W) (conj (conj (proj1 (proj2 (proj2 (proj2 S)))) (cp_ge_cv5 p t W)) (w_pos5 p t W)))))).
Qed.
Print Assumptions C60_gas.
Theorem C60_sound : forall p t, hot_gas p t ->
  ptR 5 OW p t ^ 2 = 1000000 * ptR 5 OV p t * (ptR 5 OCP p t / cv_mayer 5 p t) / ptR 5 OKT p t.
Proof. exact w_sq5. Qed.
Print Assumptions C60_sound.

(* C61; at rates of at least 2 kJ/(kg K) and 2/2273.15 kJ/(kg K) per kelvin *)
Theorem C61_enthalpy : forall p t1 t2, hot_gas p t1 -> hot_gas p t2 -> t1 < t2 -> 2 * (t2 - t1) < ptR 5 OH p t2 - ptR 5 OH p t1.
Proof. exact h_incr5. Qed.
Print Assumptions C61_enthalpy.
Theorem C61_entropy : forall p t1 t2, hot_gas p t1 -> hot_gas p t2 -> t1 < t2 -> 2 / 2273.15 * (t2 - t1) < ptR 5 OS p t2 - ptR 5 OS p t1.
Proof. exact s_incr5. Qed.
Print Assumptions C61_entropy.
Theorem C61_volume : forall t p1 p2, 0 < p1 -> p1 < p2 -> hot_gas p2 t -> ptR 5 OV p2 t < ptR 5 OV p1 t.
Proof. exact v_decr5. Qed.
Print Assumptions C61_volume.
(* the fundamental equations of regions 2 and 5 meet at 800 C within 0.1 kJ/kg and 0.15 J/(kg K) *)
Theorem C61_joint : forall p, 0 < p <= 50 ->
  Rabs (ptR 2 OH p 800 - ptR 5 OH p 800) <= 0.1 /\ Rabs (ptR 2 OS p 800 - ptR 5 OS p 800) <= 0.00015.
Proof. exact (fun p H => conj (h25_gap p H) (s25_gap p H)). Qed.
Print Assumptions C61_joint.
