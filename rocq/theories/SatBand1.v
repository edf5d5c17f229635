(* Bounds of the saturated liquid properties of the region 1 equation along the saturation
   line from 273.14 K to 623.16 K, by interval arithmetic on bands of temperature: in each
   band the saturation pressure stays within d of the line c + k T. *)
From Coq Require Import ZArith List Bool Reals Lra Lia.
From Interval Require Import Tactic.
From Verif Require Import Num RealInst Constant Reg1 RSums Gibbs GibbsModel ThermoApi ThermoPts SpecReal.
Open Scope R_scope.
Definition bound1 (p T : R) : Prop := f_h Gib1 p T <= 1950 /\ f_s Gib1 p T <= 4.7 /\ 0.5e-3 <= f_v Gib1 p T <= 4e-3.
Ltac band1 T := intros; split; [|split]; [unfold f_h|unfold f_s|unfold f_v]; tab; interval with (i_bisect T, i_autodiff T).
Ltac chord T := intros; unfold if97_psat; cbv zeta; interval with (i_bisect T, i_autodiff T).
Lemma c1 T : 273.14 <= T <= 300 -> - 0.001466 <= if97_psat T - ((0.002074) + 0 * T) <= 0.001466.
Proof. chord T. Qed.
Lemma b1 q T : - 0.001466 <= q <= 0.001466 -> 273.14 <= T <= 300 -> bound1 (q + ((0.002074) + 0 * T)) T.
Proof. band1 T. Qed.
Lemma c2 T : 300 <= T <= 340 -> - 0.011833 <= if97_psat T - ((0.015362) + 0 * T) <= 0.011833.
Proof. chord T. Qed.
Lemma b2 q T : - 0.011833 <= q <= 0.011833 -> 300 <= T <= 340 -> bound1 (q + ((0.015362) + 0 * T)) T.
Proof. band1 T. Qed.
Lemma c3 T : 340 <= T <= 390 -> - 0.076265 <= if97_psat T - ((0.103413) + 0 * T) <= 0.076265.
Proof. chord T. Qed.
Lemma b3 q T : - 0.076265 <= q <= 0.076265 -> 340 <= T <= 390 -> bound1 (q + ((0.103413) + 0 * T)) T.
Proof. band1 T. Qed.
Lemma c4 T : 390 <= T <= 420 -> - 0.01284 <= if97_psat T - ((-3.182) + 0.00859 * T) <= 0.01284.
Proof. chord T. Qed.
Lemma b4 q T : - 0.01284 <= q <= 0.01284 -> 390 <= T <= 420 -> bound1 (q + ((-3.182) + 0.00859 * T)) T.
Proof. band1 T. Qed.
Lemma c5 T : 420 <= T <= 450 -> - 0.02053 <= if97_psat T - ((-6.5069) + 0.01649 * T) <= 0.02053.
Proof. chord T. Qed.
Lemma b5 q T : - 0.02053 <= q <= 0.02053 -> 420 <= T <= 450 -> bound1 (q + ((-6.5069) + 0.01649 * T)) T.
Proof. band1 T. Qed.
Lemma c6 T : 450 <= T <= 490 -> - 0.05671 <= if97_psat T - ((-13.1908) + 0.03127 * T) <= 0.05671.
Proof. chord T. Qed.
Lemma b6 q T : - 0.05671 <= q <= 0.05671 -> 450 <= T <= 490 -> bound1 (q + ((-13.1908) + 0.03127 * T)) T.
Proof. band1 T. Qed.
Lemma c7 T : 490 <= T <= 530 -> - 0.08529 <= if97_psat T - ((-25.7511) + 0.05685 * T) <= 0.08529.
Proof. chord T. Qed.
Lemma b7 q T : - 0.08529 <= q <= 0.08529 -> 490 <= T <= 530 -> bound1 (q + ((-25.7511) + 0.05685 * T)) T.
Proof. band1 T. Qed.
Lemma c8 T : 530 <= T <= 560 -> - 0.06491 <= if97_psat T - ((-42.4118) + 0.08832 * T) <= 0.06491.
Proof. chord T. Qed.
Lemma b8 q T : - 0.06491 <= q <= 0.06491 -> 530 <= T <= 560 -> bound1 (q + ((-42.4118) + 0.08832 * T)) T.
Proof. band1 T. Qed.
Lemma c9 T : 560 <= T <= 575 -> - 0.01957 <= if97_psat T - ((-56.6618) + 0.11384 * T) <= 0.01957.
Proof. chord T. Qed.
Lemma b9 q T : - 0.01957 <= q <= 0.01957 -> 560 <= T <= 575 -> bound1 (q + ((-56.6618) + 0.11384 * T)) T.
Proof. band1 T. Qed.
Lemma c10 T : 575 <= T <= 590 -> - 0.02206 <= if97_psat T - ((-68.1411) + 0.1338 * T) <= 0.02206.
Proof. chord T. Qed.
Lemma b10 q T : - 0.02206 <= q <= 0.02206 -> 575 <= T <= 590 -> bound1 (q + ((-68.1411) + 0.1338 * T)) T.
Proof. band1 T. Qed.
Lemma c11 T : 590 <= T <= 600 -> - 0.011 <= if97_psat T - ((-79.0755) + 0.15235 * T) <= 0.011.
Proof. chord T. Qed.
Lemma b11 q T : - 0.011 <= q <= 0.011 -> 590 <= T <= 600 -> bound1 (q + ((-79.0755) + 0.15235 * T)) T.
Proof. band1 T. Qed.
Lemma c12 T : 600 <= T <= 610 -> - 0.01201 <= if97_psat T - ((-88.9284) + 0.16877 * T) <= 0.01201.
Proof. chord T. Qed.
Lemma b12 q T : - 0.01201 <= q <= 0.01201 -> 600 <= T <= 610 -> bound1 (q + ((-88.9284) + 0.16877 * T)) T.
Proof. band1 T. Qed.
Lemma c13 T : 610 <= T <= 615 -> - 0.00338 <= if97_psat T - ((-97.0397) + 0.18208 * T) <= 0.00338.
Proof. chord T. Qed.
Lemma b13 q T : - 0.00338 <= q <= 0.00338 -> 610 <= T <= 615 -> bound1 (q + ((-97.0397) + 0.18208 * T)) T.
Proof. band1 T. Qed.
Lemma c14 T : 615 <= T <= 619.5 -> - 0.0029 <= if97_psat T - ((-102.5681) + 0.19107 * T) <= 0.0029.
Proof. chord T. Qed.
Lemma b14 q T : - 0.0029 <= q <= 0.0029 -> 615 <= T <= 619.5 -> bound1 (q + ((-102.5681) + 0.19107 * T)) T.
Proof. band1 T. Qed.
Lemma c15 T : 619.5 <= T <= 623.16 -> - 0.00207 <= if97_psat T - ((-107.5853) + 0.19917 * T) <= 0.00207.
Proof. chord T. Qed.
Lemma b15 q T : - 0.00207 <= q <= 0.00207 -> 619.5 <= T <= 623.16 -> bound1 (q + ((-107.5853) + 0.19917 * T)) T.
Proof. band1 T. Qed.
Lemma sat_bound1 T : 273.14 <= T <= 623.16 -> bound1 (if97_psat T) T.
Proof.
  intros H.
  destruct (Rle_dec T 300) as [?|?]; [replace (if97_psat T) with (if97_psat T - ((0.002074) + 0 * T) + ((0.002074) + 0 * T)) by ring; apply b1; [apply c1|]; lra|].
  destruct (Rle_dec T 340) as [?|?]; [replace (if97_psat T) with (if97_psat T - ((0.015362) + 0 * T) + ((0.015362) + 0 * T)) by ring; apply b2; [apply c2|]; lra|].
  destruct (Rle_dec T 390) as [?|?]; [replace (if97_psat T) with (if97_psat T - ((0.103413) + 0 * T) + ((0.103413) + 0 * T)) by ring; apply b3; [apply c3|]; lra|].
  destruct (Rle_dec T 420) as [?|?]; [replace (if97_psat T) with (if97_psat T - ((-3.182) + 0.00859 * T) + ((-3.182) + 0.00859 * T)) by ring; apply b4; [apply c4|]; lra|].
  destruct (Rle_dec T 450) as [?|?]; [replace (if97_psat T) with (if97_psat T - ((-6.5069) + 0.01649 * T) + ((-6.5069) + 0.01649 * T)) by ring; apply b5; [apply c5|]; lra|].
  destruct (Rle_dec T 490) as [?|?]; [replace (if97_psat T) with (if97_psat T - ((-13.1908) + 0.03127 * T) + ((-13.1908) + 0.03127 * T)) by ring; apply b6; [apply c6|]; lra|].
  destruct (Rle_dec T 530) as [?|?]; [replace (if97_psat T) with (if97_psat T - ((-25.7511) + 0.05685 * T) + ((-25.7511) + 0.05685 * T)) by ring; apply b7; [apply c7|]; lra|].
  destruct (Rle_dec T 560) as [?|?]; [replace (if97_psat T) with (if97_psat T - ((-42.4118) + 0.08832 * T) + ((-42.4118) + 0.08832 * T)) by ring; apply b8; [apply c8|]; lra|].
  destruct (Rle_dec T 575) as [?|?]; [replace (if97_psat T) with (if97_psat T - ((-56.6618) + 0.11384 * T) + ((-56.6618) + 0.11384 * T)) by ring; apply b9; [apply c9|]; lra|].
  destruct (Rle_dec T 590) as [?|?]; [replace (if97_psat T) with (if97_psat T - ((-68.1411) + 0.1338 * T) + ((-68.1411) + 0.1338 * T)) by ring; apply b10; [apply c10|]; lra|].
  destruct (Rle_dec T 600) as [?|?]; [replace (if97_psat T) with (if97_psat T - ((-79.0755) + 0.15235 * T) + ((-79.0755) + 0.15235 * T)) by ring; apply b11; [apply c11|]; lra|].
  destruct (Rle_dec T 610) as [?|?]; [replace (if97_psat T) with (if97_psat T - ((-88.9284) + 0.16877 * T) + ((-88.9284) + 0.16877 * T)) by ring; apply b12; [apply c12|]; lra|].
  destruct (Rle_dec T 615) as [?|?]; [replace (if97_psat T) with (if97_psat T - ((-97.0397) + 0.18208 * T) + ((-97.0397) + 0.18208 * T)) by ring; apply b13; [apply c13|]; lra|].
  destruct (Rle_dec T 619.5) as [?|?]; [replace (if97_psat T) with (if97_psat T - ((-102.5681) + 0.19107 * T) + ((-102.5681) + 0.19107 * T)) by ring; apply b14; [apply c14|]; lra|].
  destruct (Rle_dec T 623.16) as [?|?]; [replace (if97_psat T) with (if97_psat T - ((-107.5853) + 0.19917 * T) + ((-107.5853) + 0.19917 * T)) by ring; apply b15; [apply c15|]; lra|].
  lra.
Qed.
(* around the triple point *)
Lemma low_bound1 p T : 0.0006112 <= p <= 0.000612 -> 273.14 <= T <= 273.16 -> bound1 p T.
Proof. intros Hp HT. replace p with (p - ((0.002074) + 0 * T) + ((0.002074) + 0 * T)) by ring. apply b1; lra. Qed.
