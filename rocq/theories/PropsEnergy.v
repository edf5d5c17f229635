(* C75: energies of wet steam; growth with the quality; enthalpy of the saturated liquid. *)
From Coq Require Import ZArith List Reals Lra.
From Verif Require Import Num RealInst Constant Api Spec SpecReal WetEnergy.
Import ListNotations.
Open Scope R_scope.

Theorem C75_energies_t : forall t, 0 <= t <= 350 -> forall x, 0 <= x <= 1 ->
  @tx RArith t x OH = @tx RArith t x OU + 1000 * @tx RArith t x OP * @tx RArith t x OV /\
  @tx RArith t x OG = @tx RArith t x OH - (t + 273.15) * @tx RArith t x OS /\
  @tx RArith t x OF = @tx RArith t x OU - (t + 273.15) * @tx RArith t x OS /\
  @tx RArith t x OE = @tx RArith t x OH - 273.16 * @tx RArith t x OS.
Proof. exact energies. Qed.
Print Assumptions C75_energies_t.

Theorem C75_energies_p : forall p x, 0.00061121267745 <= p <= 16.5291642526045 -> 0 <= x <= 1 ->
  @px RArith p x OH = @px RArith p x OU + 1000 * p * @px RArith p x OV /\
  @px RArith p x OG = @px RArith p x OH - (@px RArith p x OT + 273.15) * @px RArith p x OS /\
  @px RArith p x OF = @px RArith p x OU - (@px RArith p x OT + 273.15) * @px RArith p x OS /\
  @px RArith p x OE = @px RArith p x OH - 273.16 * @px RArith p x OS.
Proof. exact energies_p. Qed.
Print Assumptions C75_energies_p.

Theorem C75_quality_t : forall t, 0 <= t <= 350 -> forall o x y, In o [OH; OS; OV] -> 0 <= x -> x < y -> y <= 1 ->
  @tx RArith t x o < @tx RArith t y o.
Proof. exact grows. Qed.
Print Assumptions C75_quality_t.

Theorem C75_quality_p : forall o p x y, 0.00061121267745 <= p <= 16.5291642526045 -> In o [OH; OS; OV] -> 0 <= x -> x < y -> y <= 1 ->
  @px RArith p x o < @px RArith p y o.
Proof. exact grows_p. Qed.
Print Assumptions C75_quality_p.

Theorem C75_liquid_enthalpy : forall t1 t2, 0 <= t1 -> t1 < t2 -> t2 <= 235 -> @tx RArith t1 0 OH < @tx RArith t2 0 OH.
Proof. exact sat_h. Qed.
Print Assumptions C75_liquid_enthalpy.

Example energy_example : 0 <= 100 <= 350 /\ 0.00061121267745 <= 1 <= 16.5291642526045 /\ In OS [OH; OS; OV] /\ 0 <= 0.25 /\ 0.25 < 0.5 /\ 0.5 <= 1 /\ 0 <= 20 /\ 20 < 200 /\ 200 <= 235.
Proof. repeat split; try lra. cbn; auto. Qed.
