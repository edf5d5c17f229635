(* C76: the region map of tv and ts between 350 and 590 C, in terms of what pt and tx return. *)
From Coq Require Import ZArith Reals Lra.
From Verif Require Import Num RealInst Constant Api Spec SpecReal SpecSub3 SpecThermo SpecIso Iso3.
Open Scope R_scope.

Theorem C76_tv_super : forall fuel t v, 373.946 < t <= 590 ->
  (tv_region fuel t v = Some 3 <-> ptR 3 OV 100 t <= v < ptR 2 OV (if97_b23 (t + 273.15)) t).
Proof. exact tv3_super. Qed.
Print Assumptions C76_tv_super.

Theorem C76_tv_sub : forall fuel t v, 350 < t <= 373.946 - 1e-6 -> let vb := ptR 2 OV (if97_b23 (t + 273.15)) t in
  (tv_region fuel t v = Some 3 <-> @tx RArith t 1 OV < v < vb \/ ptR 3 OV 100 t <= v < @tx RArith t 0 OV /\ ~ vb <= v < ptR 2 OV 1e-8 t) /\
  (tv_region fuel t v = Some 4 <-> @tx RArith t 0 OV <= v <= @tx RArith t 1 OV /\ ~ vb <= v < ptR 2 OV 1e-8 t).
Proof. exact tv3_sub. Qed.
Print Assumptions C76_tv_sub.

Theorem C76_tv_out : forall fuel t v, t < 0 \/ 2000 < t -> tv_region fuel t v = Some (-9999).
Proof. exact tv_out. Qed.
Print Assumptions C76_tv_out.

Theorem C76_ts_super : forall t s, 373.946 < t <= 590 -> s_range s ->
  (ts_region t s = 3 <-> ptR 3 OS 100 t <= s < ptR 2 OS (if97_b23 (t + 273.15)) t).
Proof. exact ts3_super. Qed.
Print Assumptions C76_ts_super.

Theorem C76_ts_sub : forall t s, 350 < t <= 373.946 - 1e-6 -> s_range s -> let sb := ptR 2 OS (if97_b23 (t + 273.15)) t in
  (ts_region t s = 3 <-> @tx RArith t 1 OS < s < sb \/ ptR 3 OS 100 t <= s < @tx RArith t 0 OS /\ ~ sb <= s < ptR 2 OS 1e-8 t) /\
  (ts_region t s = 4 <-> @tx RArith t 0 OS <= s <= @tx RArith t 1 OS /\ ~ sb <= s < ptR 2 OS 1e-8 t).
Proof. exact ts3_sub. Qed.
Print Assumptions C76_ts_sub.

Theorem C76_ts_out : forall t s, (t < 0 \/ 2000 < t -> ts_region t s = -2101) /\ (0 <= t <= 2000 -> ~ s_range s -> ts_region t s = -2102).
Proof. exact ts_out. Qed.
Print Assumptions C76_ts_out.

Example iso3_example : (3000 < 0 \/ 2000 < 3000) /\ 0 <= 100 <= 2000 /\ ~ s_range 20 /\ 373.946 < 400 <= 590 /\ 350 < 360 <= 373.946 - 1e-6 /\ s_range 4 /\ (-1 < 0 \/ 2000 < -1).
Proof. unfold s_range. repeat split; try lra. Qed.
