(* The states of region 5 by temperature in degrees Celsius and pressure in MPa. *)
From Coq Require Import Reals.
Open Scope R_scope.
Definition hot_gas (p t : R) : Prop := 800 <= t <= 2000 /\ 0 < p <= 50.
