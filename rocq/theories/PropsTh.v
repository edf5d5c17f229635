(* C72: the region map of th for liquid water and wet steam. *)
From Coq Require Import ZArith Reals Lra.
From Verif Require Import Constant SpecReal SpecThermo SpecStable SpecIso ThMap.
Open Scope R_scope.

Theorem C72_cold : forall fuel t h, 0 <= t < 250 -> let ps := if97_psat (t + 273.15) in
  (th_region fuel t h = Some 1 <-> ptR 1 OH ps t < h <= ptR 1 OH 100 t) /\
  (th_region fuel t h = Some 4 <-> ptR 1 OH ps t <= h <= ptR 2 OH ps t /\ ~ (ptR 1 OH ps t < h <= ptR 1 OH 100 t)).
Proof. exact th_cold. Qed.
Print Assumptions C72_cold.

(* exactly the liquid above the saturation pressure, but see C72_wet_refuted *)
Theorem C72_liquid : forall fuel t h, 0 <= t <= 235 ->
  (th_region fuel t h = Some 1 <-> exists p, if97_psat (t + 273.15) < p <= 100 /\ h = ptR 1 OH p t).
Proof. exact th_liquid. Qed.
Print Assumptions C72_liquid.

Example liquid_example : if97_psat (100 + 273.15) < 50 /\ forall fuel, th_region fuel 100 (ptR 1 OH 50 100) = Some 1.
Proof. split; [exact psat_100|exact th_example]. Qed.

(* from 250 C on no enthalpy at all is found in region 1 *)
Theorem C72_hot : forall fuel t h, 250 <= t <= 350 -> let ps := if97_psat (t + 273.15) in
  th_region fuel t h <> Some 1 /\
  (th_region fuel t h = Some 4 <-> ptR 1 OH ps t <= h <= ptR 2 OH ps t) /\
  (th_region fuel t h = Some (-9999) <-> h < ptR 1 OH ps t \/ ptR 2 OH 1e-8 t <= h).
Proof. exact th_hot. Qed.
Print Assumptions C72_hot.

(* the reason: the sign of the slope of the enthalpy along the isotherm *)
Theorem C72_slope : forall p t, liquid p t -> t <= 235 -> 0 < ptR 1 OIJTC p t.
Proof. exact th_slope. Qed.
Print Assumptions C72_slope.
Theorem C72_slope_saturated : forall t, 250 <= t <= 350 -> ptR 1 OIJTC (if97_psat (t + 273.15)) t < 0.
Proof. exact th_slope_sat. Qed.
Print Assumptions C72_slope_saturated.

(* "th finds the liquid": false for every liquid state of 275 to 325 C up to 12.34 MPa *)
Theorem C72_liquid_refuted : forall fuel p t, 275 <= t <= 325 -> if97_psat (t + 273.15) < p <= 12.34 ->
  liquid p t /\ th_region fuel t (ptR 1 OH p t) = Some (-9999).
Proof. exact th_lost. Qed.
Print Assumptions C72_liquid_refuted.

Example lost_example : 275 <= 300 <= 325 /\ if97_psat (300 + 273.15) < 12 <= 12.34.
Proof. pose proof psat_300. lra. Qed.

(* "th finds the wet steam": false at every temperature up to 235 C *)
Theorem C72_wet_refuted : forall fuel t, 0 <= t <= 235 -> let ps := if97_psat (t + 273.15) in
  exists x, 0 < x < 1 /\ th_region fuel t (ptR 1 OH ps t + x * (ptR 2 OH ps t - ptR 1 OH ps t)) = Some 1.
Proof. exact th_wet_lost. Qed.
Print Assumptions C72_wet_refuted.
