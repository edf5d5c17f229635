(* Property theorems about hs in the regions 1 and 2 (C67-C69), in exact arithmetic: the backward
   equations p(h,s) of the sub-regions 2a, 2b and 2c and the choice among them, for every state of
   the region above the saturation pressure of 0 C; the region map and the pressure found without
   naming the region, for the states of both regions kept clear of the boundaries; the failure
   of the map on the isobar of 100 MPa. *)
From Coq Require Import ZArith Reals Lra.
From Interval Require Import Tactic.
From Verif Require Import Num RealInst Constant Api Spec SpecReal SpecThermo SpecStable SpecSteam SpecHs Back2hs MapHs MapHs1.
Open Scope R_scope.

(* states of the three sub-regions 2a, 2b, 2c and of the corner at 800 C and 100 MPa *)
Example hs_example : (vapour 1 300 /\ if97_psat 273.15 <= 1) /\ (vapour 10 500 /\ if97_psat 273.15 <= 10) /\
  (vapour 30 500 /\ if97_psat 273.15 <= 30) /\ (vapour 100 800 /\ if97_psat 273.15 <= 100).
Proof.
  unfold vapour. repeat split; try lra; intros; try lra; unfold if97_psat, if97_b23; cbv zeta; interval.
Qed.

(* C67: whatever the bound on the search loop, hs returns the pressure to 0.0125 percent *)
Theorem C67_pressure : forall fuel p t, vapour p t -> if97_psat 273.15 <= p -> exists q,
  @hs RArith fuel (ptR 2 OH p t) (ptR 2 OS p t) (from_pair (OP, 2%Z)) = Some q /\ Rabs (q - p) <= 0.000125 * p.
Proof. exact hs_p2. Qed.
Print Assumptions C67_pressure.

(* states near the saturation line, near the boundary with region 3 and near 100 MPa *)
Example dry_example : dry 1 180.1 /\ dry 10 500 /\ dry 30 426 /\ dry 99.8 799 /\ (180.1 <= 698 \/ 50 <= 1) /\ (799 <= 698 \/ 50 <= 99.8).
Proof.
  unfold dry. repeat split; try lra; try (left; lra); try (right; lra); intros; try lra; repeat match goal with H : _ |- _ => clear H end; unfold if97_psat, if97_b23; cbv zeta; interval.
Qed.

(* C68: hs finds region 2 from the enthalpy and the entropy of a state *)
Theorem C68_region : forall fuel p t, dry p t -> t <= 698 \/ 50 <= p ->
  @hs RArith fuel (ptR 2 OH p t) (ptR 2 OS p t) (from_i32 OR) = Some 2.
Proof. exact hs_map2. Qed.
Print Assumptions C68_region.
(* C68: it then answers every property as if the region had been named *)
Theorem C68_properties : forall fuel p t o, dry p t -> t <= 698 \/ 50 <= p ->
  @hs RArith fuel (ptR 2 OH p t) (ptR 2 OS p t) (from_i32 o) = @hs RArith fuel (ptR 2 OH p t) (ptR 2 OS p t) (from_pair (o, 2%Z)).
Proof. exact hs_auto2. Qed.
Print Assumptions C68_properties.
(* C68: in particular the pressure to 0.0125 percent *)
Theorem C68_pressure : forall fuel p t, dry p t -> t <= 698 \/ 50 <= p -> exists q,
  @hs RArith fuel (ptR 2 OH p t) (ptR 2 OS p t) (from_i32 OP) = Some q /\ Rabs (q - p) <= 0.000125 * p.
Proof. exact hs_pauto. Qed.
Print Assumptions C68_pressure.

(* cold, hot and nearly boiling water *)
Example pressed_example : pressed 1 20 /\ pressed 99.8 0 /\ pressed 99.8 310 /\ pressed 0.107 100 /\ pressed 9.9 310.
Proof.
  unfold pressed. repeat split; try lra; repeat match goal with H : _ |- _ => clear H end; unfold if97_psat; cbv zeta; interval.
Qed.

(* C69: hs finds region 1 from the enthalpy and the entropy of a state *)
Theorem C69_region : forall fuel p t, pressed p t ->
  @hs RArith fuel (ptR 1 OH p t) (ptR 1 OS p t) (from_i32 OR) = Some 1.
Proof. exact hs_map1. Qed.
Print Assumptions C69_region.
(* C69: it then answers every property as if the region had been named *)
Theorem C69_properties : forall fuel p t o, pressed p t ->
  @hs RArith fuel (ptR 1 OH p t) (ptR 1 OS p t) (from_i32 o) = @hs RArith fuel (ptR 1 OH p t) (ptR 1 OS p t) (from_pair (o, 1%Z)).
Proof. exact hs_auto1. Qed.
Print Assumptions C69_properties.
(* C69: in particular the pressure to 0.015 MPa *)
Theorem C69_pressure : forall fuel p t, pressed p t -> exists q,
  @hs RArith fuel (ptR 1 OH p t) (ptR 1 OS p t) (from_i32 OP) = Some q /\ Rabs (q - p) <= 0.015.
Proof. exact hs_pauto1. Qed.
Print Assumptions C69_pressure.
(* C69: the full statement, for every state of region 1 up to 310 C, is false: each of the
   states at 100 MPa is rejected with the code of an invalid input *)
Theorem C69_refuted : exists p t, liquid p t /\ t <= 310 /\
  forall fuel, @hs RArith fuel (ptR 1 OH p t) (ptR 1 OS p t) (from_i32 OR) <> Some 1.
Proof. exact hs_100_not. Qed.
Print Assumptions C69_refuted.
Theorem C69_top_isobar : forall fuel t, 0 <= t <= 310 ->
  liquid 100 t /\ @hs RArith fuel (ptR 1 OH 100 t) (ptR 1 OS 100 t) (from_i32 OR) = Some (-9999).
Proof. exact hs_100. Qed.
Print Assumptions C69_top_isobar.
