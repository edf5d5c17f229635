(* Bounds of the saturated steam properties of the region 2 equation along the saturation
   line from 273.14 K to 623.16 K, by interval arithmetic on bands of temperature: in each
   band the saturation pressure stays within d of the line c + k T. *)
From Coq Require Import ZArith List Bool Reals Lra Lia.
From Interval Require Import Tactic.
From Verif Require Import Num RealInst Constant Reg2 RSums Gibbs GibbsModel ThermoApi ThermoPts SpecReal.
Open Scope R_scope.
Definition bound2 (p T : R) : Prop := 2000 <= f_h Gib2 p T /\ 5 <= f_s Gib2 p T /\ 8e-3 <= f_v Gib2 p T.
Ltac band2 T := intros; split; [|split]; [unfold f_h|unfold f_s|unfold f_v]; tab; interval with (i_bisect T, i_autodiff T).
Ltac chord T := intros; unfold if97_psat; cbv zeta; interval with (i_bisect T, i_autodiff T).
Lemma c1 T : 273.14 <= T <= 300 -> - 0.001466 <= if97_psat T - ((0.002074) + 0 * T) <= 0.001466.
Proof. chord T. Qed.
Lemma b1 q T : - 0.001466 <= q <= 0.001466 -> 273.14 <= T <= 300 -> bound2 (q + ((0.002074) + 0 * T)) T.
Proof. band2 T. Qed.
Lemma c2 T : 300 <= T <= 340 -> - 0.011833 <= if97_psat T - ((0.015362) + 0 * T) <= 0.011833.
Proof. chord T. Qed.
Lemma b2 q T : - 0.011833 <= q <= 0.011833 -> 300 <= T <= 340 -> bound2 (q + ((0.015362) + 0 * T)) T.
Proof. band2 T. Qed.
Lemma c3 T : 340 <= T <= 390 -> - 0.076265 <= if97_psat T - ((0.103413) + 0 * T) <= 0.076265.
Proof. chord T. Qed.
Lemma b3 q T : - 0.076265 <= q <= 0.076265 -> 340 <= T <= 390 -> bound2 (q + ((0.103413) + 0 * T)) T.
Proof. band2 T. Qed.
Lemma c4 T : 390 <= T <= 420 -> - 0.01284 <= if97_psat T - ((-3.182) + 0.00859 * T) <= 0.01284.
Proof. chord T. Qed.
Lemma b4 q T : - 0.01284 <= q <= 0.01284 -> 390 <= T <= 420 -> bound2 (q + ((-3.182) + 0.00859 * T)) T.
Proof. band2 T. Qed.
Lemma c5 T : 420 <= T <= 450 -> - 0.02053 <= if97_psat T - ((-6.5069) + 0.01649 * T) <= 0.02053.
Proof. chord T. Qed.
Lemma b5 q T : - 0.02053 <= q <= 0.02053 -> 420 <= T <= 450 -> bound2 (q + ((-6.5069) + 0.01649 * T)) T.
Proof. band2 T. Qed.
Lemma c6 T : 450 <= T <= 490 -> - 0.05671 <= if97_psat T - ((-13.1908) + 0.03127 * T) <= 0.05671.
Proof. chord T. Qed.
Lemma b6 q T : - 0.05671 <= q <= 0.05671 -> 450 <= T <= 490 -> bound2 (q + ((-13.1908) + 0.03127 * T)) T.
Proof. band2 T. Qed.
Lemma c7 T : 490 <= T <= 530 -> - 0.08529 <= if97_psat T - ((-25.7511) + 0.05685 * T) <= 0.08529.
Proof. chord T. Qed.
Lemma b7 q T : - 0.08529 <= q <= 0.08529 -> 490 <= T <= 530 -> bound2 (q + ((-25.7511) + 0.05685 * T)) T.
Proof. band2 T. Qed.
Lemma c8 T : 530 <= T <= 560 -> - 0.06491 <= if97_psat T - ((-42.4118) + 0.08832 * T) <= 0.06491.
Proof. chord T. Qed.
Lemma b8 q T : - 0.06491 <= q <= 0.06491 -> 530 <= T <= 560 -> bound2 (q + ((-42.4118) + 0.08832 * T)) T.
Proof. band2 T. Qed.
Lemma c9 T : 560 <= T <= 590 -> - 0.08258 <= if97_psat T - ((-62.3079) + 0.12382 * T) <= 0.08258.
Proof. chord T. Qed.
Lemma b9 q T : - 0.08258 <= q <= 0.08258 -> 560 <= T <= 590 -> bound2 (q + ((-62.3079) + 0.12382 * T)) T.
Proof. band2 T. Qed.
Lemma c10 T : 590 <= T <= 610 -> - 0.04537 <= if97_psat T - ((-83.9506) + 0.16056 * T) <= 0.04537.
Proof. chord T. Qed.
Lemma b10 q T : - 0.04537 <= q <= 0.04537 -> 590 <= T <= 610 -> bound2 (q + ((-83.9506) + 0.16056 * T)) T.
Proof. band2 T. Qed.
Lemma c11 T : 610 <= T <= 623.16 -> - 0.02319 <= if97_psat T - ((-101.834) + 0.18991 * T) <= 0.02319.
Proof. chord T. Qed.
Lemma b11 q T : - 0.02319 <= q <= 0.02319 -> 610 <= T <= 623.16 -> bound2 (q + ((-101.834) + 0.18991 * T)) T.
Proof. band2 T. Qed.
Lemma sat_bound2 T : 273.14 <= T <= 623.16 -> bound2 (if97_psat T) T.
Proof.
  intros H.
  destruct (Rle_dec T 300) as [?|?]; [replace (if97_psat T) with (if97_psat T - ((0.002074) + 0 * T) + ((0.002074) + 0 * T)) by ring; apply b1; [apply c1|]; lra|].
  destruct (Rle_dec T 340) as [?|?]; [replace (if97_psat T) with (if97_psat T - ((0.015362) + 0 * T) + ((0.015362) + 0 * T)) by ring; apply b2; [apply c2|]; lra|].
  destruct (Rle_dec T 390) as [?|?]; [replace (if97_psat T) with (if97_psat T - ((0.103413) + 0 * T) + ((0.103413) + 0 * T)) by ring; apply b3; [apply c3|]; lra|].
  destruct (Rle_dec T 420) as [?|?]; [replace (if97_psat T) with (if97_psat T - ((-3.182) + 0.00859 * T) + ((-3.182) + 0.00859 * T)) by ring; apply b4; [apply c4|]; lra|].
  destruct (Rle_dec T 450) as [?|?]; [replace (if97_psat T) with (if97_psat T - ((-6.5069) + 0.01649 * T) + ((-6.5069) + 0.01649 * T)) by ring; apply b5; [apply c5|]; lra|].
  destruct (Rle_dec T 490) as [?|?]; [replace (if97_psat T) with (if97_psat T - ((-13.1908) + 0.03127 * T) + ((-13.1908) + 0.03127 * T)) by ring; apply b6; [apply c6|]; lra|].
  destruct (Rle_dec T 530) as [?|?]; [replace (if97_psat T) with (if97_psat T - ((-25.7511) + 0.05685 * T) + ((-25.7511) + 0.05685 * T)) by ring; apply b7; [apply c7|]; lra|].
  destruct (Rle_dec T 560) as [?|?]; [replace (if97_psat T) with (if97_psat T - ((-42.4118) + 0.08832 * T) + ((-42.4118) + 0.08832 * T)) by ring; apply b8; [apply c8|]; lra|].
  destruct (Rle_dec T 590) as [?|?]; [replace (if97_psat T) with (if97_psat T - ((-62.3079) + 0.12382 * T) + ((-62.3079) + 0.12382 * T)) by ring; apply b9; [apply c9|]; lra|].
  destruct (Rle_dec T 610) as [?|?]; [replace (if97_psat T) with (if97_psat T - ((-83.9506) + 0.16056 * T) + ((-83.9506) + 0.16056 * T)) by ring; apply b10; [apply c10|]; lra|].
  destruct (Rle_dec T 623.16) as [?|?]; [replace (if97_psat T) with (if97_psat T - ((-101.834) + 0.18991 * T) + ((-101.834) + 0.18991 * T)) by ring; apply b11; [apply c11|]; lra|].
  lra.
Qed.
(* around the triple point *)
Lemma low_bound2 p T : 0.0006112 <= p <= 0.000612 -> 273.14 <= T <= 273.16 -> bound2 p T.
Proof. intros Hp HT. replace p with (p - ((0.002074) + 0 * T) + ((0.002074) + 0 * T)) by ring. apply b1; lra. Qed.
