(* Property theorems about region 2 (C54-C57): stability, monotonicity and the round trips
   through the backward equations, in exact arithmetic, for every state of the region. *)
From Coq Require Import ZArith Reals Lra.
From Interval Require Import Tactic.
From Verif Require Import Num RealInst Constant Api Spec SpecReal SpecThermo SpecStable SpecSteam Stab2 Back2.
Open Scope R_scope.

(* states of region 2: superheated, on the saturation line, in the corners, a rarefied gas *)
Example vapour_example : vapour 1 300 /\ vapour (if97_psat (200 + 273.15)) 200 /\ vapour 100 800 /\ vapour 0.000001 0 /\ vapour 30 500.
Proof.
  unfold vapour. repeat split; try lra; try (intros _; apply Rle_refl); try apply Rle_refl; intros; try lra; unfold if97_psat, if97_b23; cbv zeta; interval.
Qed.
(* the further hypotheses of C56 and C57 *)
Example beyond_example : (vapour 1 300 /\ beyond23 1 300 /\ if97_psat 273.15 <= 1) /\ (vapour 30 500 /\ beyond23 30 500 /\ if97_psat 273.15 <= 30) /\
  (vapour 100 800 /\ beyond23 100 800 /\ if97_psat 273.15 <= 100).
Proof.
  unfold vapour, beyond23. repeat split; try lra; intros; try lra; unfold if97_psat, if97_b23, if97_b23T; cbv zeta; interval.
Qed.

(* C54 *)
Theorem C54_vapour : forall p t, vapour p t ->
  0 < ptR 2 OV p t /\ 0 < ptR 2 OKT p t /\ ptR 2 ODVDP p t < 0 /\
  0 < ptR 2 OCV p t <= ptR 2 OCP p t /\ 0 < ptR 2 OW p t.
Proof.
  exact (fun p t H => let W := vap_wide p t H in conj (v_pos2 p t W) (conj (kt_pos2 p t W) (conj (dvdp_neg2 p t W)
    (conj (conj (cv_pos2 p t W) (cp_ge_cv2 p t W)) (w_pos2 p t W))))).
Qed.
Print Assumptions C54_vapour.
Theorem C54_sound : forall p t, vapour p t ->
  ptR 2 OW p t ^ 2 = 1000000 * ptR 2 OV p t * (ptR 2 OCP p t / ptR 2 OCV p t) / ptR 2 OKT p t.
Proof. exact (fun p t H => proj1 (w_sq2 p t (vap_wide p t H))). Qed.
Print Assumptions C54_sound.

(* C55 *)
Theorem C55_enthalpy : forall p t1 t2, vapour p t1 -> t1 < t2 -> t2 <= 800 -> ptR 2 OH p t1 < ptR 2 OH p t2.
Proof. exact h_vap. Qed.
Print Assumptions C55_enthalpy.
Theorem C55_entropy : forall p t1 t2, vapour p t1 -> t1 < t2 -> t2 <= 800 -> ptR 2 OS p t1 < ptR 2 OS p t2.
Proof. exact s_vap. Qed.
Print Assumptions C55_entropy.
Theorem C55_volume : forall t p1 p2, 0 < p1 -> p1 < p2 -> vapour p2 t -> ptR 2 OV p2 t < ptR 2 OV p1 t.
Proof. exact (fun t p1 p2 A B H => v_decr2 t p1 p2 A B (vap_wide p2 t H)). Qed.
Print Assumptions C55_volume.
Theorem C55_unique : forall p t1 t2, vapour p t1 -> vapour p t2 ->
  (ptR 2 OH p t1 = ptR 2 OH p t2 \/ ptR 2 OS p t1 = ptR 2 OS p t2) -> t1 = t2.
Proof. exact vap_unique. Qed.
Print Assumptions C55_unique.

(* C56: the region map of ph and the backward equations T(p,h) of 2a, 2b and 2c *)
Theorem C56_region : forall p t, vapour p t -> beyond23 p t -> if97_psat 273.15 <= p -> phR OR p (ptR 2 OH p t) = 2.
Proof. exact ph_region2. Qed.
Print Assumptions C56_region.
Theorem C56_temperature : forall p t, vapour p t -> beyond23 p t -> if97_psat 273.15 <= p -> Rabs (phR OT p (ptR 2 OH p t) - t) <= 0.025.
Proof. exact ph_t2. Qed.
Print Assumptions C56_temperature.
(* neither further hypothesis can be dropped: a state on the boundary with region 3 by Eq. 5 of
   the release is put into region 3, *)
Theorem C56_boundary_refuted : exists p t, vapour p t /\ if97_psat 273.15 <= p /\ phR OR p (ptR 2 OH p t) = 3.
Proof. exact (ex_intro _ (if97_b23 700) (ex_intro _ 426.85 (conj edge_vap (conj edge_min ph_edge2)))). Qed.
Print Assumptions C56_boundary_refuted.
(* and below 0.000611212677444 MPa, where pt answers, ph gives up whatever the enthalpy *)
Theorem C56_low_pressure_refuted : exists p t, vapour p t /\ beyond23 p t /\
  forall o h, o <> OP -> o <> OH -> phR o p h = IZR INVALID_VALUE.
Proof. exact ph_low_ex. Qed.
Print Assumptions C56_low_pressure_refuted.

(* C57: the same for ps *)
Theorem C57_region : forall p t, vapour p t -> beyond23 p t -> if97_psat 273.15 <= p -> psR OR p (ptR 2 OS p t) = 2.
Proof. exact ps_region2. Qed.
Print Assumptions C57_region.
Theorem C57_temperature : forall p t, vapour p t -> beyond23 p t -> if97_psat 273.15 <= p -> Rabs (psR OT p (ptR 2 OS p t) - t) <= 0.025.
Proof. exact ps_t2. Qed.
Print Assumptions C57_temperature.
Theorem C57_low_pressure_refuted : exists p t, vapour p t /\ beyond23 p t /\
  forall o s, o <> OP -> o <> OS -> psR o p s = IZR INVALID_VALUE.
Proof. exact ps_low_ex. Qed.
Print Assumptions C57_low_pressure_refuted.
