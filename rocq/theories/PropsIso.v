(* Property theorems about isotherms and isobars (C62-C66): the region maps of tv, th, ts and
   pv, and the signs of the thermal expansion on which they rest, in exact arithmetic. *)
From Coq Require Import ZArith Reals Lra.
From Verif Require Import Num RealInst Constant Api Spec SpecReal SpecSub3 SpecThermo SpecStable SpecSteam SpecGas SpecMap SpecIso Stab1 Stab2 Stab5 Back2 TvMap Expand IsoMap PvMap.
Open Scope R_scope.

(* the hypotheses: a liquid isotherm, one of the vapour next to region 3, an entropy, isobars
   below and above the critical pressure *)
Example iso_example : (0 < 5 <= 350) /\ (350 < 400 <= 590 /\ if97_b23 (400 + 273.15) <= 100) /\ s_range 1 /\ pv_range 1 /\ pv_range 25 /\
  9 + 273.15 <= hottest_liquid 1 /\ 9 + 273.15 <= hottest_liquid 25.
Proof. exact rise_ex. Qed.
(* states of the three regions, for the signs and for the liquid, vapour and hot isobars *)
Example state_example : liquid 1 100 /\ 5 <= 100 /\ vapour 1 200 /\ hot_gas 1 1000 /\ (0.01 <= 1 <= 5) /\
  (exists v, ptR 2 OV 1 800 < v /\ ptR 5 OV 1 800 < v) /\ ptR 1 OV 1 9 <= ptR 1 OV 1 20.
Proof. exact state_ex. Qed.

(* C62: tv *)
Theorem C62_liquid : forall fuel t v, 0 <= t <= 350 ->
  (tv_region fuel t v = Some 1 <-> exists p, if97_psat (t + 273.15) < p < 100 /\ v = ptR 1 OV p t).
Proof. exact tv1. Qed.
Print Assumptions C62_liquid.
Theorem C62_vapour : forall fuel t v, 0 <= t <= 350 ->
  (tv_region fuel t v = Some 2 <-> exists p, 1e-8 < p < if97_psat (t + 273.15) /\ v = ptR 2 OV p t).
Proof. exact tv2. Qed.
Print Assumptions C62_vapour.
Theorem C62_wet : forall fuel t v, 0 <= t <= 350 -> let ps := if97_psat (t + 273.15) in
  (tv_region fuel t v = Some 4 <-> ptR 1 OV ps t <= v <= ptR 2 OV ps t) /\
  (tv_region fuel t v = Some (-9999) <-> v <= ptR 1 OV 100 t \/ ptR 2 OV 1e-8 t <= v).
Proof. exact tv4. Qed.
Print Assumptions C62_wet.
Theorem C62_dense_vapour : forall fuel t v, 350 < t <= 590 -> if97_b23 (t + 273.15) <= 100 ->
  (tv_region fuel t v = Some 2 <-> exists p, 1e-8 < p <= if97_b23 (t + 273.15) /\ v = ptR 2 OV p t).
Proof. exact tv2m. Qed.
Print Assumptions C62_dense_vapour.
Theorem C62_hot : forall fuel t v, 800 < t <= 2000 ->
  (tv_region fuel t v = Some 5 <-> exists p, 0.000611212677444 <= p <= 50 /\ v = ptR 5 OV p t).
Proof. exact tv5. Qed.
Print Assumptions C62_hot.
(* the state of the liquid at 100 MPa, which pt accepts, is not found at any temperature *)
Theorem C62_edge : forall fuel t, 0 <= t <= 350 -> liquid 100 t /\ tv_region fuel t (ptR 1 OV 100 t) = Some (-9999).
Proof. exact tv_edge. Qed.
Print Assumptions C62_edge.
Theorem C62_edge_refuted : exists p t, liquid p t /\ forall fuel, tv_region fuel t (ptR 1 OV p t) = Some (-9999).
Proof. exact edge_w. Qed.
Print Assumptions C62_edge_refuted.

(* C63: thermal expansion *)
Theorem C63_liquid : forall p t, liquid p t -> 5 <= t -> 0 < ptR 1 ODVDT p t.
Proof. exact (fun p t H T => dvdt_pos1 p t (liq_wide p t H) T). Qed.
Print Assumptions C63_liquid.
Theorem C63_vapour : forall p t, vapour p t -> 0 < ptR 2 ODVDT p t /\ ptR 2 OIJTC p t < 0 /\ 0 < ptR 2 OJTC p t.
Proof. exact (fun p t H => let W := vap_wide p t H in conj (dvdt_pos2 p t W) (conj (dhdp_neg2 p t W) (jt_pos2 p t W))). Qed.
Print Assumptions C63_vapour.
Theorem C63_gas : forall p t, hot_gas p t -> 0 < ptR 5 ODVDT p t /\ ptR 5 OIJTC p t < 0 /\ 0 < ptR 5 OJTC p t.
Proof. exact (fun p t H => conj (dvdt_pos5 p t H) (conj (dhdp_neg5 p t H) (jt_pos5 p t H))). Qed.
Print Assumptions C63_gas.
Theorem C63_volume : forall p t1 t2, t1 < t2 ->
  (5 <= t1 -> liquid p t2 -> ptR 1 OV p t1 < ptR 1 OV p t2) /\
  (vapour p t1 -> t2 <= 800 -> ptR 2 OV p t1 < ptR 2 OV p t2) /\
  (hot_gas p t1 -> hot_gas p t2 -> ptR 5 OV p t1 < ptR 5 OV p t2).
Proof. exact v_rises. Qed.
Print Assumptions C63_volume.
Theorem C63_pressure : forall t p1 p2, 0 < p1 -> p1 < p2 ->
  (5 <= t -> liquid p1 t -> p2 <= 100 -> ptR 1 OS p2 t < ptR 1 OS p1 t) /\
  (vapour p2 t -> ptR 2 OS p2 t < ptR 2 OS p1 t /\ ptR 2 OH p2 t < ptR 2 OH p1 t) /\
  (hot_gas p2 t -> ptR 5 OS p2 t < ptR 5 OS p1 t /\ ptR 5 OH p2 t < ptR 5 OH p1 t).
Proof. exact sh_fall. Qed.
Print Assumptions C63_pressure.

(* C64: pv; the volume of the liquid has its minimum near 4 C, so that the map is one to one
   only from the volume at 9 C on *)
Theorem C64_liquid : forall p v, pv_range p -> 9 + 273.15 <= hottest_liquid p -> ptR 1 OV p 9 <= v ->
  (pv_region p v = 1 <-> exists t, 9 <= t /\ t + 273.15 <= hottest_liquid p /\ v = ptR 1 OV p t).
Proof. exact (fun p v H => pv_is1 p H v). Qed.
Print Assumptions C64_liquid.
Theorem C64_liquid_found : forall p t, pv_range p -> 9 <= t -> t + 273.15 <= hottest_liquid p -> pv_region p (ptR 1 OV p t) = 1.
Proof. exact (fun p t H => pv_finds1 p H t). Qed.
Print Assumptions C64_liquid_found.
Theorem C64_vapour : forall p v, pv_range p ->
  (pv_region p v = 2 <-> exists t, (if Rle_dec p p_corner then coldest_vapour p < t + 273.15 else coldest_vapour p <= t + 273.15) /\ t <= 800 /\ v = ptR 2 OV p t).
Proof. exact (fun p v H => pv_is2 p H v). Qed.
Print Assumptions C64_vapour.
Theorem C64_wet : forall p v, pv_range p -> p <= p_corner -> let T := if97_tsat p in
  (ptR 1 OV p (T - 273.15) < v <= ptR 2 OV p (T - 273.15) -> pv_region p v = 4) /\
  (pv_region p v = 4 -> ptR 1 OV p (T - 273.15) <= v <= ptR 2 OV p (T - 273.15)).
Proof. exact pv4. Qed.
Print Assumptions C64_wet.
Theorem C64_hot : forall p v, pv_range p -> p <= p_corner \/ 22.064 < p -> ptR 2 OV p 800 < v -> ptR 5 OV p 800 < v ->
  (pv_region p v = 5 <-> p <= 50 /\ exists t, 800 < t <= 2000 /\ v = ptR 5 OV p t).
Proof. exact (fun p v H => pv_is5 p H v). Qed.
Print Assumptions C64_hot.
(* liquid water at 4 C is not found at any pressure up to 5 MPa *)
Theorem C64_cold : forall p, 0.01 <= p <= 5 -> liquid p 4 /\ pv_region p (ptR 1 OV p 4) = -9999.
Proof. exact cold_water. Qed.
Print Assumptions C64_cold.
Theorem C64_cold_refuted : exists p t, liquid p t /\ pv_region p (ptR 1 OV p t) = -9999.
Proof. exact cold_w. Qed.
Print Assumptions C64_cold_refuted.
(* and liquid water at 0 C is called vapour just above the saturation pressure *)
Theorem C64_triple : forall p, if97_psat 273.15 <= p <= 0.000611213 -> liquid p 0 /\ pv_region p (ptR 1 OV p 0) = 2.
Proof. exact triple_water. Qed.
Print Assumptions C64_triple.
Theorem C64_triple_refuted : exists p t, liquid p t /\ pv_region p (ptR 1 OV p t) = 2.
Proof. exact triple_w. Qed.
Print Assumptions C64_triple_refuted.

(* C65: ts *)
Theorem C65_liquid : forall t s, 5 <= t <= 350 -> s_range s ->
  (ts_region t s = 1 <-> exists p, if97_psat (t + 273.15) < p < 100 /\ s = ptR 1 OS p t).
Proof. exact ts1. Qed.
Print Assumptions C65_liquid.
Theorem C65_vapour : forall t s, 0 <= t <= 350 -> s_range s ->
  (ts_region t s = 2 <-> exists p, 1e-8 < p < if97_psat (t + 273.15) /\ s = ptR 2 OS p t).
Proof. exact (fun t s H => ts_is2 t H s). Qed.
Print Assumptions C65_vapour.
Theorem C65_wet : forall t s, 0 <= t <= 350 -> s_range s -> let ps := if97_psat (t + 273.15) in
  (ts_region t s = 4 <-> ptR 1 OS ps t <= s <= ptR 2 OS ps t).
Proof. exact ts4. Qed.
Print Assumptions C65_wet.
Theorem C65_dense_vapour : forall t s, 350 < t <= 590 -> if97_b23 (t + 273.15) <= 100 -> s_range s ->
  (ts_region t s = 2 <-> exists p, 1e-8 < p <= if97_b23 (t + 273.15) /\ s = ptR 2 OS p t).
Proof. exact (fun t s H Hb => ts_is2m t H Hb s). Qed.
Print Assumptions C65_dense_vapour.
Theorem C65_hot : forall t s, 800 < t <= 2000 -> s_range s ->
  (ts_region t s = 5 <-> exists p, 0.000611212677444 <= p <= 50 /\ s = ptR 5 OS p t).
Proof. exact (fun t s H => ts_is5 t H s). Qed.
Print Assumptions C65_hot.
(* at 1 C the entropy of the liquid rises with pressure: compressed water is called wet steam *)
Theorem C65_cold : forall p, 0.001 <= p <= 5 -> liquid p 1 /\ ts_region 1 (ptR 1 OS p 1) = 4.
Proof. exact cold_wet. Qed.
Print Assumptions C65_cold.
Theorem C65_cold_refuted : exists p t, liquid p t /\ ts_region t (ptR 1 OS p t) = 4.
Proof. exact wet_w. Qed.
Print Assumptions C65_cold_refuted.

(* C66: th *)
Theorem C66_vapour : forall fuel t h, 0 <= t <= 350 ->
  (th_region fuel t h = Some 2 <-> exists p, 1e-8 < p < if97_psat (t + 273.15) /\ h = ptR 2 OH p t).
Proof. exact th2. Qed.
Print Assumptions C66_vapour.
Theorem C66_dense_vapour : forall fuel t h, 350 < t <= 590 -> if97_b23 (t + 273.15) <= 100 ->
  (th_region fuel t h = Some 2 <-> exists p, 1e-8 < p <= if97_b23 (t + 273.15) /\ h = ptR 2 OH p t).
Proof. exact th2m. Qed.
Print Assumptions C66_dense_vapour.
Theorem C66_hot : forall fuel t h, 800 < t <= 2000 ->
  (th_region fuel t h = Some 5 <-> exists p, 0.000611212677444 <= p <= 50 /\ h = ptR 5 OH p t).
Proof. exact th5. Qed.
Print Assumptions C66_hot.
