(* C18, C35, C36: two-phase states. *)
From Coq Require Import ZArith List Bool Reals Lra.
From Verif Require Import Num Constant R4Sat Api RealInst FloatInst Spec SpecReal SpecWet Lever LeverReal WetGap.
Import ListNotations.

(* C35, bit for bit in any arithmetic (binary64 included): the mixture is y0 + x (y1 - y0) with the
   library's own saturated values.  Up to 623.15 K for volume, density and the energies: *)
Theorem C35_px_low : forall (N : Arith), lits01 -> forall (p x : num) (o : Z), In o (OV :: OD :: energy_ids) -> in_px p x -> inner x ->
  ((T_saturation p >? #623.15) = false -> (p >=? P_MIN) = true -> (p <=? Ps_623) = true ->
  px p x o = px p (#0.0) o + x * (px p (#1.0) o - px p (#0.0) o))%num.
Proof. exact (fun N L p x o Ho G I A B C => proj1 (@px_low N L p x o Ho G I A B C)). Qed.
Print Assumptions C35_px_low.
(* above 623.15 K for the energies: *)
Theorem C35_px_high : forall (N : Arith), lits01 -> forall (p x : num) (o : Z), In o energy_ids -> in_px p x -> inner x ->
  ((T_saturation p >? #623.15) = true -> (p <=? Ps_623) = false -> (nabs (p - PC_WATER) <? FLOAT_ERROR) = false ->
  px p x o = px p (#0.0) o + x * (px p (#1.0) o - px p (#0.0) o))%num.
Proof. exact @px_high_lin. Qed.
Print Assumptions C35_px_high.
Theorem C35_tx_low : forall (N : Arith), lits01 -> forall (t x : num) (o : Z), (let T := t + #273.15 in
  In o (OV :: OD :: energy_ids) -> in_tx T x -> inner x ->
  (T >? #623.15) = false -> (T <=? #623.15) = true -> (nabs (T - TC_WATER) <? FLOAT_ERROR) = false ->
  tx t x o = tx t (#0.0) o + x * (tx t (#1.0) o - tx t (#0.0) o))%num.
Proof. exact (fun N L t x o Ho G I A B C => proj1 (@tx_low N L t x o Ho G I A B C)). Qed.
Print Assumptions C35_tx_low.
Theorem C35_tx_high : forall (N : Arith), lits01 -> forall (t x : num) (o : Z), (let T := t + #273.15 in
  In o energy_ids -> in_tx T x -> inner x ->
  (T >? #623.15) = true -> (T <=? #623.15) = false -> (nabs (T - TC_WATER) <? FLOAT_ERROR) = false ->
  tx t x o = tx t (#0.0) o + x * (tx t (#1.0) o - tx t (#0.0) o))%num.
Proof. exact @tx_high_lin. Qed.
Print Assumptions C35_tx_high.
(* binary64 meets the hypothesis on the literals, and p = 1 MPa, t = 100 C, x = 0.25 the others *)
Example C35_example_float : forall L : Libm, @lits01 (FArith L) /\
  @in_px (FArith L) (@lit (FArith L) (1.0%dec)) (@lit (FArith L) (0.25%dec)) /\ @inner (FArith L) (@lit (FArith L) (0.25%dec)) /\
  @in_tx (FArith L) (@lit (FArith L) (373.15%dec)) (@lit (FArith L) (0.25%dec)).
Proof. repeat split; vm_compute; reflexivity. Qed.

Open Scope R_scope.
(* in exact arithmetic, for every wet state, volume and energies; hence between the saturated values *)
Theorem C35_px : forall p x o, wet_p p -> 0 < x < 1 -> In o (OV :: energy_ids) ->
  lever x (@px RArith p 0 o) (@px RArith p 1 o) (@px RArith p x o).
Proof. exact px_lever. Qed.
Print Assumptions C35_px.
Theorem C35_tx : forall t x o, wet_T (t + 273.15) -> 0 < x < 1 -> In o (OV :: energy_ids) ->
  lever x (@tx RArith t 0 o) (@tx RArith t 1 o) (@tx RArith t x o).
Proof. exact tx_lever. Qed.
Print Assumptions C35_tx.
Example C35_example : wet_p 1 /\ wet_p 20 /\ wet_T (100 + 273.15) /\ wet_T (360 + 273.15).
Proof. pose proof psat_623. unfold wet_p, wet_T. lra. Qed.
(* full statement (all mixed ids, whole line), false: between 623.15 K and the critical point the
   density of a wet state is the error code -1000 *)
Theorem C35_density_refuted : exists p x, wet_p p /\ 0 < x < 1 /\ 0 < @px RArith p 0 OD /\ 0 < @px RArith p 1 OD /\
  @px RArith p x OD = -1000 /\ ~ lever x (@px RArith p 0 OD) (@px RArith p 1 OD) (@px RArith p x OD).
Proof. exact od_hot_refuted. Qed.
Print Assumptions C35_density_refuted.

(* C18: full statement, false for every wet state: up to 623.15 K the product is above 1, *)
Theorem C18_wet_never : forall p x, 0.000611212677444 <= p <= 16.5291642526045 -> 0 < x < 1 ->
  1 < @px RArith p x OD * @px RArith p x OV.
Proof. exact px_od. Qed.
Print Assumptions C18_wet_never.
Theorem C18_wet_refuted : exists p x, wet_p p /\ 0 < x < 1 /\ @px RArith p x OD * @px RArith p x OV <> 1.
Proof. exact px_od_ex. Qed.
Print Assumptions C18_wet_refuted.
(* by this much: *)
Theorem C18_wet_product : forall p x, 0.000611212677444 <= p <= 16.5291642526045 -> 0 < x < 1 ->
  @px RArith p 0 OV <> 0 -> @px RArith p 1 OV <> 0 ->
  @px RArith p x OD * @px RArith p x OV =
  1 + x * (1 - x) * (@px RArith p 1 OV - @px RArith p 0 OV) ^ 2 / (@px RArith p 0 OV * @px RArith p 1 OV).
Proof. exact px_density_volume. Qed.
Print Assumptions C18_wet_product.
(* above, the density is an error code *)
Theorem C18_wet_hot : forall p x, if97_psat 623.15 < p <= 22.064 - 1e-6 -> 0 < x < 1 -> @px RArith p x OD = -1000.
Proof. exact px_density_hot. Qed.
Print Assumptions C18_wet_hot.
Theorem C18_wet_hot_t : forall t x, 623.15 < t + 273.15 <= 647.096 - 1e-6 -> 0 < x < 1 -> @tx RArith t x OD = -1000.
Proof. exact tx_density_hot. Qed.
Print Assumptions C18_wet_hot_t.
Example C18_example : (0.000611212677444 <= 1 <= 16.5291642526045 /\ 0 < 0.5 < 1 /\ if97_psat 623.15 < 20 <= 22.064 - 1e-6)%R.
Proof. pose proof psat_623. lra. Qed.

(* C36: the quality comes back, for any (p or t, h or s or v) pair, with distinct saturated values *)
Theorem C36_p : forall fuel f o p x, In (f, o) [(PH, OH); (PS, OS); (PV, OV)] -> wet_p p -> 0 <= x <= 1 ->
  @px RArith p 0 o <> @px RArith p 1 o ->
  @call RArith fuel f p (@px RArith p x o) (from_pair (OX, 4%Z)) = Some x.
Proof. exact p_quality. Qed.
Print Assumptions C36_p.
Theorem C36_t : forall fuel f o t x, In (f, o) [(TH, OH); (TS, OS); (TV, OV)] -> wet_T (t + 273.15) -> 0 <= x <= 1 ->
  @tx RArith t 0 o <> @tx RArith t 1 o ->
  @call RArith fuel f t (@tx RArith t x o) (from_pair (OX, 4%Z)) = Some x.
Proof. exact t_quality. Qed.
Print Assumptions C36_t.
(* up to 623.15 K the saturated values are distinct: enthalpy by 50 kJ/kg, entropy by 0.3 kJ/(kg K), volume by 0.004 m3/kg at least *)
Theorem C36_distinct_p : forall p, 0.000611212677444 <= p <= 16.5291642526045 ->
  gap (@px RArith p 0 OH) (@px RArith p 1 OH) (@px RArith p 0 OS) (@px RArith p 1 OS) (@px RArith p 0 OV) (@px RArith p 1 OV).
Proof. exact px_gap. Qed.
Print Assumptions C36_distinct_p.
Theorem C36_distinct_t : forall t, 273.15 <= t + 273.15 <= 623.15 ->
  gap (@tx RArith t 0 OH) (@tx RArith t 1 OH) (@tx RArith t 0 OS) (@tx RArith t 1 OS) (@tx RArith t 0 OV) (@tx RArith t 1 OV).
Proof. exact tx_gap. Qed.
Print Assumptions C36_distinct_t.
Theorem C36_p_low : forall fuel f o p x, In (f, o) [(PH, OH); (PS, OS); (PV, OV)] ->
  0.000611212677444 <= p <= 16.5291642526045 -> 0 <= x <= 1 ->
  @call RArith fuel f p (@px RArith p x o) (from_pair (OX, 4%Z)) = Some x.
Proof. exact px_quality. Qed.
Print Assumptions C36_p_low.
Theorem C36_t_low : forall fuel f o t x, In (f, o) [(TH, OH); (TS, OS); (TV, OV)] ->
  273.15 <= t + 273.15 <= 623.15 -> 0 <= x <= 1 ->
  @call RArith fuel f t (@tx RArith t x o) (from_pair (OX, 4%Z)) = Some x.
Proof. exact tx_quality. Qed.
Print Assumptions C36_t_low.
Example C36_example : In (PH, OH) [(PH, OH); (PS, OS); (PV, OV)] /\ In (TV, OV) [(TH, OH); (TS, OS); (TV, OV)] /\
  (0.000611212677444 <= 1 <= 16.5291642526045 /\ 273.15 <= 100 + 273.15 <= 623.15)%R.
Proof. cbn. repeat split; auto; lra. Qed.
