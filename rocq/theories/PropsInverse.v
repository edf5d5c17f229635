(* C39: the inverse functions return temperatures and pressures inside the region *)
From Coq Require Import ZArith List Bool Floats PArith.
From Verif Require Import Num Types Region Constant Api Spec FloatInst SpecSolver SpecInverse ClampFloat Clamp12.
Import ListNotations.

(* region 5 temperatures: every binary64 input, every maths library *)
Theorem C39_T_region5 : forall (L : Libm) (fuel : positive) (f : api2) (a b t : float),
  In f [PH; PS; PV; HS] -> @call (FArith L) fuel f a b (from_pair (OT, 5%Z)) = Some t ->
  within_or_nan 800 2000 t.
Proof. exact T_region5. Qed.
Print Assumptions C39_T_region5.
Example C39_T_region5_ph : @call (FArith RefLibm) 1 PH 1%float 9000%float (from_pair (OT, 5%Z)) = Some 2000%float /\
  exists t, @call (FArith RefLibm) 1 PH 1%float 5000%float (from_pair (OT, 5%Z)) = Some t /\ PrimFloat.ltb 1000 t = true /\ PrimFloat.ltb t 1400 = true.
Proof. split; [vm_compute; reflexivity|]. eexists. vm_compute. repeat split; reflexivity. Qed.

(* region 5 pressures: hs is inside the limits; the full statement for tv, th and ts,
     within_or_nan P_MIN5 50 p,
   is false: the answer can leave the limits when the library accepts it as a solution *)
Theorem C39_hs_region5 : forall (L : Libm) (fuel : positive) (h s p : float),
  @call (FArith L) fuel HS h s (from_pair (OP, 5%Z)) = Some p ->
  within_or_nan (float_of_dec 0.000611212677444) 50 p.
Proof. exact hs_p_region5. Qed.
Print Assumptions C39_hs_region5.
Theorem C39_p_region5 : forall (L : Libm) (fuel : positive) (f : api2) (t y p : float),
  In f [TV; TH; TS] -> @call (FArith L) fuel f t y (from_pair (OP, 5%Z)) = Some p ->
  within_or_nan (float_of_dec 0.000611212677444) 50 p \/ recovers L f 5 t y p.
Proof. exact p_region5. Qed.
Print Assumptions C39_p_region5.
Theorem C39_p_region5_refuted : exists (t v p : float),
  @call (FArith RefLibm) 100 TV t v (from_pair (OP, 5%Z)) = Some p /\ PrimFloat.ltb 50 p = true.
Proof. exists (float_of_dec 826.85), (float_of_dec 0.0094117267890834409). eexists. vm_compute. split; reflexivity. Qed.
Print Assumptions C39_p_region5_refuted.
Example C39_p_region5_th : @call (FArith RefLibm) 1 TH 1000%float 9000%float (from_pair (OP, 5%Z)) = Some (float_of_dec 0.000611212677444).
Proof. vm_compute. reflexivity. Qed.
Example C39_hs_region5_ex : exists p, @call (FArith RefLibm) 1 HS 5000%float 9%float (from_pair (OP, 5%Z)) = Some p /\ PrimFloat.ltb 1 p = true.
Proof. eexists. vm_compute. split; reflexivity. Qed.

(* region 2 pressures.  The upper limit of the code is the saturation pressure, the boundary to
   region 3 or 100, all of them at most 100.001. *)
Theorem C39_p_region2 : forall (L : Libm), powi4_in L -> forall (fuel : positive) (f : api2) (t y p : float),
  In f [TV; TH; TS] -> @call (FArith L) fuel f t y (from_pair (OP, 2%Z)) = Some p ->
  within_or_nan 0 (float_of_dec 100.001) p \/ recovers L f 2 t y p.
Proof. exact p_region2. Qed.
Print Assumptions C39_p_region2.
Example C39_powi4 : powi4_in RefLibm.
Proof. exact ref_powi4_in. Qed.
Example C39_p_region2_tv : exists p, @call (FArith RefLibm) 500 TV 200%float (float_of_dec 0.0001) (from_pair (OP, 2%Z)) = Some p /\
  PrimFloat.ltb 1 p = true /\ PrimFloat.ltb p 2 = true.
Proof. eexists. vm_compute. repeat split; reflexivity. Qed.

(* region 1 pressures at 0 to 350 C: between the library's own saturation pressure and 100 *)
Theorem C39_p_region1 : forall (L : Libm), powi4_in L -> forall (fuel : positive) (f : api2) (t y p : float),
  In f [TH; TS] -> within 0 350 t -> @call (FArith L) fuel f t y (from_pair (OP, 1%Z)) = Some p ->
  within_or_nan (@tx (FArith L) t 0%float OP) 100 p \/ recovers L f 1 t y p.
Proof. exact p_region1. Qed.
Print Assumptions C39_p_region1.
Example C39_p_region1_th : @call (FArith RefLibm) 1 TH 100%float 5000%float (from_pair (OP, 1%Z)) = Some 100%float.
Proof. vm_compute. reflexivity. Qed.
(* tv in region 1 has no limits at all *)
Theorem C39_tv_region1_refuted : exists (t v p : float), within 0 350 t /\
  @call (FArith RefLibm) 1 TV t v (from_pair (OP, 1%Z)) = Some p /\ PrimFloat.ltb 300 p = true.
Proof. exists 100%float, (float_of_dec 0.0009). eexists. vm_compute. repeat split; reflexivity. Qed.
Print Assumptions C39_tv_region1_refuted.

(* pv in region 1: up to a hundredth of a degree above 350 C, or the error code in Celsius *)
Theorem C39_T_region1 : forall (L : Libm) (fuel : positive) (p v t : float),
  @call (FArith L) fuel PV p v (from_pair (OT, 1%Z)) = Some t ->
  t = float_of_dec (-10272.15) \/ within_or_nan 0 (float_of_dec 350.011) t.
Proof. exact T_region1. Qed.
Print Assumptions C39_T_region1.
Theorem C39_T_region1_refuted : exists (p v t u : float),
  @call (FArith RefLibm) 1 PV p v (from_pair (OT, 1%Z)) = Some t /\ PrimFloat.ltb 350 t = true /\
  @call (FArith RefLibm) 1 PV p PrimFloat.nan (from_pair (OT, 1%Z)) = Some u /\ u = float_of_dec (-10272.15).
Proof. exists 20%float, (float_of_dec 0.001668). do 2 eexists. vm_compute. repeat split; reflexivity. Qed.
Print Assumptions C39_T_region1_refuted.
Example C39_T_region1_ex : exists t, @call (FArith RefLibm) 1 PV 20%float (float_of_dec 0.00101) (from_pair (OT, 1%Z)) = Some t /\
  PrimFloat.ltb 40 t = true /\ PrimFloat.ltb t 70 = true.
Proof. eexists. vm_compute. repeat split; reflexivity. Qed.
