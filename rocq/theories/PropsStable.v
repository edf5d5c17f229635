(* Property theorems about stability, monotonicity and the round trips through the backward
   equations (C49-C53), in exact arithmetic, for every state of the region. *)
From Coq Require Import ZArith Reals Lra.
From Interval Require Import Tactic.
From Verif Require Import Num RealInst Constant Api Spec SpecReal SpecThermo SpecStable Stab1.
Open Scope R_scope.

(* states of region 1: in the middle, on the saturation line, in the corners *)
Example liquid_example : liquid 10 100 /\ liquid (if97_psat (200 + 273.15)) 200 /\ liquid 100 0 /\ liquid 16.5292 350.
Proof.
  unfold liquid. split; [|split; [|split]]; (split; [lra|]); (split; [|try lra]); try apply Rle_refl;
    unfold if97_psat; cbv zeta; interval.
Qed.

(* C49 *)
Theorem C49_liquid : forall p t, liquid p t ->
  0 < ptR 1 OV p t /\ 0 < ptR 1 OKT p t /\ ptR 1 ODVDP p t < 0 /\
  0 < ptR 1 OCV p t <= ptR 1 OCP p t /\ 0 < ptR 1 OW p t.
Proof.
  exact (fun p t H => let W := liq_wide p t H in conj (v_pos1 p t W) (conj (kt_pos1 p t W) (conj (dvdp_neg1 p t W)
    (conj (conj (cv_pos1 p t W) (cp_ge_cv1 p t W)) (w_pos1 p t W))))).
Qed.
Print Assumptions C49_liquid.
(* the hypothesis of C27 holds there: the speed of sound is the one of the equation of state *)
Theorem C49_sound : forall p t, liquid p t ->
  ptR 1 OW p t ^ 2 = 1000000 * ptR 1 OV p t * (ptR 1 OCP p t / ptR 1 OCV p t) / ptR 1 OKT p t.
Proof. exact (fun p t H => proj1 (w_sq1 p t (liq_wide p t H))). Qed.
Print Assumptions C49_sound.

(* C50; t1 needs only to be inside the temperature range, the state (p, t1) is then liquid *)
Theorem C50_enthalpy : forall p t1 t2, 0 <= t1 -> t1 < t2 -> liquid p t2 -> ptR 1 OH p t1 < ptR 1 OH p t2.
Proof. exact h_liq. Qed.
Print Assumptions C50_enthalpy.
Theorem C50_entropy : forall p t1 t2, 0 <= t1 -> t1 < t2 -> liquid p t2 -> ptR 1 OS p t1 < ptR 1 OS p t2.
Proof. exact s_liq. Qed.
Print Assumptions C50_entropy.
Theorem C50_volume : forall t p1 p2, liquid p1 t -> p1 < p2 -> p2 <= 100 -> ptR 1 OV p2 t < ptR 1 OV p1 t.
Proof. exact (fun t p1 p2 H => v_decr1 t p1 p2 (liq_wide p1 t H)). Qed.
Print Assumptions C50_volume.
Theorem C50_unique : forall p t1 t2, liquid p t1 -> liquid p t2 ->
  (ptR 1 OH p t1 = ptR 1 OH p t2 \/ ptR 1 OS p t1 = ptR 1 OS p t2) -> t1 = t2.
Proof. exact liq_unique. Qed.
Print Assumptions C50_unique.

(* C51: the region map of ph and the backward equation T(p,h) *)
Theorem C51_region : forall p t, liquid p t -> phR OR p (ptR 1 OH p t) = 1.
Proof. exact ph_region1. Qed.
Print Assumptions C51_region.
Theorem C51_temperature : forall p t, liquid p t -> Rabs (phR OT p (ptR 1 OH p t) - t) <= 0.025.
Proof. exact ph_t1. Qed.
Print Assumptions C51_temperature.

(* C52: the same for ps *)
Theorem C52_region : forall p t, liquid p t -> psR OR p (ptR 1 OS p t) = 1.
Proof. exact ps_region1. Qed.
Print Assumptions C52_region.
Theorem C52_temperature : forall p t, liquid p t -> Rabs (psR OT p (ptR 1 OS p t) - t) <= 0.025.
Proof. exact ps_t1. Qed.
Print Assumptions C52_temperature.

(* C53: the backward equation p(h,s), region given *)
Theorem C53_pressure : forall fuel p t, liquid p t -> exists q,
  @hs RArith fuel (ptR 1 OH p t) (ptR 1 OS p t) (from_pair (OP, 1%Z)) = Some q /\ Rabs (q - p) <= 0.015.
Proof. exact hs_p1. Qed.
Print Assumptions C53_pressure.
