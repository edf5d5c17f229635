(* Property theorems about the transport equations over their whole range (C70, C71), in exact
   arithmetic: how the static dielectric constant, the viscosity and the thermal conductivity
   depend on pressure, temperature and density. *)
From Coq Require Import ZArith List Reals Lra.
From Interval Require Import Tactic.
From Verif Require Import Num RealInst Constant Transport Api Spec SpecReal SpecThermo SpecStable SpecSteam SpecGas Diel Visc.
Import ListNotations.
Open Scope R_scope.

(* C70: the static dielectric constant is that of the vacuum at zero density, *)
Theorem C70_vacuum : forall T, 228 < T -> @static_dielectric RArith 0%R T = 1.
Proof. exact eps_0. Qed.
Print Assumptions C70_vacuum.
(* grows with the density and falls with the temperature, *)
Theorem C70_density : forall T r1 r2, 273.15 <= T <= 2273.15 -> 0 <= r1 -> r1 < r2 -> r2 <= 1100 ->
  @static_dielectric RArith r1 T < @static_dielectric RArith r2 T.
Proof. exact eps_incr. Qed.
Print Assumptions C70_density.
Theorem C70_temperature : forall r T1 T2, 0 < r <= 1100 -> 273.15 <= T1 -> T1 < T2 -> T2 <= 2273.15 ->
  @static_dielectric RArith r T2 < @static_dielectric RArith r T1.
Proof. exact eps_decr. Qed.
Print Assumptions C70_temperature.
(* so that the answers of pt exceed 1, *)
Theorem C70_above_one : forall r p t, r = 1%Z /\ liquid p t \/ r = 2%Z /\ vapour p t \/ r = 5%Z /\ hot_gas p t -> 1 < ptR r OSDC p t.
Proof. exact sdc_above. Qed.
Print Assumptions C70_above_one.
(* grow with the pressure *)
Theorem C70_liquid_p : forall t p1 p2, liquid p1 t -> p1 < p2 -> p2 <= 100 -> ptR 1 OSDC p1 t < ptR 1 OSDC p2 t.
Proof. exact sdc1_p. Qed.
Print Assumptions C70_liquid_p.
Theorem C70_vapour_p : forall t p1 p2, 0 < p1 -> p1 < p2 -> vapour p2 t -> ptR 2 OSDC p1 t < ptR 2 OSDC p2 t.
Proof. exact sdc2_p. Qed.
Print Assumptions C70_vapour_p.
Theorem C70_gas_p : forall t p1 p2, 0 < p1 -> p1 < p2 -> hot_gas p2 t -> ptR 5 OSDC p1 t < ptR 5 OSDC p2 t.
Proof. exact sdc5_p. Qed.
Print Assumptions C70_gas_p.
(* and fall with the temperature, in the liquid from 5 C on *)
Theorem C70_liquid_t : forall p t1 t2, 5 <= t1 -> t1 < t2 -> liquid p t2 -> ptR 1 OSDC p t2 < ptR 1 OSDC p t1.
Proof. exact sdc1_T. Qed.
Print Assumptions C70_liquid_t.
Theorem C70_vapour_t : forall p t1 t2, vapour p t1 -> t1 < t2 -> t2 <= 800 -> ptR 2 OSDC p t2 < ptR 2 OSDC p t1.
Proof. exact sdc2_T. Qed.
Print Assumptions C70_vapour_t.
Theorem C70_gas_t : forall p t1 t2, hot_gas p t1 -> t1 < t2 -> t2 <= 2000 -> ptR 5 OSDC p t2 < ptR 5 OSDC p t1.
Proof. exact sdc5_T. Qed.
Print Assumptions C70_gas_t.
Example C70_example : liquid 10 20 /\ liquid 10 300 /\ vapour 1 300 /\ vapour 50 600 /\ hot_gas 10 1000 /\ 273.15 <= 300 <= 2273.15.
Proof. unfold liquid, vapour, hot_gas. repeat split; try lra; intros; try lra; repeat match goal with H : _ |- _ => clear H end; unfold if97_psat; cbv zeta; interval. Qed.

(* C71: viscosity and conductivity are positive, whatever the density, *)
Theorem C71_positive : forall r T, 273.15 <= T <= 2273.15 -> 0 < @viscosity RArith r T /\ 0 < @thcond RArith r T.
Proof. exact (fun r T H => conj (visc_pos r T H) (cond_pos r T H)). Qed.
Print Assumptions C71_positive.
(* hence the answers of pt in regions 1, 2, 5 and of tv in region 3, *)
Theorem C71_pt : forall r p t, In r [1; 2; 5]%Z -> 0 <= t <= 2000 -> 0 < ptR r ODV p t /\ 0 < ptR r OTC p t.
Proof. exact api_pos. Qed.
Print Assumptions C71_pt.
Theorem C71_tv : forall fuel t v, 0 <= t <= 2000 -> exists dv tc,
  @tv RArith fuel t v (from_pair (ODV, 3%Z)) = Some dv /\ @tv RArith fuel t v (from_pair (OTC, 3%Z)) = Some tc /\ 0 < dv /\ 0 < tc.
Proof. exact tv3_pos. Qed.
Print Assumptions C71_tv.
(* the viscosity rises with the temperature up to the critical density *)
Theorem C71_viscosity_light : forall r T1 T2, 0 <= r <= 322 -> 273.15 <= T1 -> T1 < T2 -> T2 <= 1073.15 ->
  @viscosity RArith r T1 < @viscosity RArith r T2.
Proof. exact visc_light. Qed.
Print Assumptions C71_viscosity_light.
(* and falls above three times the critical density, *)
Theorem C71_viscosity_dense : forall r T1 T2, 966 <= r <= 1100 -> 273.15 <= T1 -> T1 < T2 -> T2 <= 647 ->
  @viscosity RArith r T2 < @viscosity RArith r T1.
Proof. exact visc_dense. Qed.
Print Assumptions C71_viscosity_dense.
(* the conductivity of the dilute gas rises with the temperature *)
Theorem C71_conductivity_dilute : forall T1 T2, 273.15 <= T1 -> T1 < T2 -> T2 <= 2273.15 ->
  @thcond RArith 0%R T1 < @thcond RArith 0%R T2.
Proof. exact cond_dilute. Qed.
Print Assumptions C71_conductivity_dilute.
(* and that of the hot fluid with the density *)
Theorem C71_conductivity_dense : forall T r1 r2, 550 <= T <= 2273.15 -> 0 <= r1 -> r1 < r2 -> r2 <= 1100 ->
  @thcond RArith r1 T < @thcond RArith r2 T.
Proof. exact cond_dense. Qed.
Print Assumptions C71_conductivity_dense.
Example C71_example : (0 <= 20 <= 322 /\ 966 <= 998 <= 1100 /\ 273.15 <= 300 /\ 300 < 350 /\ 350 <= 647) /\ (550 <= 800 <= 2273.15 /\ 0 <= 1 /\ 1 < 500) /\ In 2%Z [1; 2; 5]%Z.
Proof. repeat split; try lra. cbn. tauto. Qed.
