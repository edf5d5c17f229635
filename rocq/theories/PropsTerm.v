(* C37, C38: which calls return *)
From Coq Require Import ZArith List Bool Floats PArith.
From Verif Require Import Num Types Region Constant Api Spec FloatInst Reg1Back Reg2Back Reg4 TermFacts TermFloat HsTerm HsLoop.
Import ListNotations.

(* C37: in binary64 every two-property function except hs returns, for all inputs (NaN and
   infinities included), all property ids and all region arguments.  The only thing asked of
   the maths library is that the fourth power of a number in [0, 3] is at most 100.  The bound
   2^66 is for the enthalpy search of th, which steps through representable numbers. *)
Theorem C37_returns : forall (L : Libm), powi4_le L -> forall (fuel : positive) (f : api2) (a b : float) (args : o_id_region_args),
  f <> HS -> (2^66 <= fuel)%positive -> exists v, @call (FArith L) fuel f a b args = Some v.
Proof. exact returns. Qed.
Print Assumptions C37_returns.
Example C37_powi4 : powi4_le RefLibm.
Proof. exact ref_powi4_le. Qed.
Example C37_nan : @call (FArith RefLibm) 500 TV PrimFloat.nan 1%float (from_i32 OH) = Some (float_of_dec (-9999)).
Proof. vm_compute. reflexivity. Qed.

(* pt, ph, ps, pv and ts do not depend on the loop bound at all, in any arithmetic *)
Theorem C37_bounded : forall {N : Arith} (f : api2) (a b : num) (args : o_id_region_args),
  In f [PT; PH; PS; PV; TS] -> exists v, forall fuel, call fuel f a b args = Some v.
Proof. intros N f a b args H. destruct f; cbn in H; (exfalso; intuition discriminate) || (eexists; intros fuel; reflexivity). Qed.
Print Assumptions C37_bounded.

(* the answer does not depend on the bound once there is one: the loops are stopped by their
   own conditions, not by the model's bound *)
Theorem C37_stable : forall {N : Arith} (m n : positive) (f : api2) (a b : num) (args : o_id_region_args) (v : num),
  (m <= n)%positive -> call m f a b args = Some v -> call n f a b args = Some v.
Proof. intros N m n f a b args v H. exact (call_le m n f a b args H v). Qed.
Print Assumptions C37_stable.
Example C37_stable_tv : exists v, @call (FArith RefLibm) 30 TV 300%float 1%float (from_i32 OP) = Some v /\ PrimFloat.ltb v 1 = true.
Proof. eexists. vm_compute. split; reflexivity. Qed.

(* the pressure searches of tv in regions 2 and 5 need fewer than 500 rounds *)
Theorem C37_tv_region2 : forall (L : Libm), powi4_le L -> forall (fuel : positive) (T v : float),
  (500 <= fuel)%positive -> exists p, @Tv2p_reg2 (FArith L) fuel T v = Some p.
Proof. exact Tv2_some. Qed.
Print Assumptions C37_tv_region2.

(* the adjustment loops of pv in region 1 stop after at most 1000001 rounds, whatever the
   volumes are; the zoom loop of region 2 stops after one *)
Theorem C37_pv_up : forall {N : Arith} (p v T r : num) (n : positive), (1000001 <= n)%positive ->
  exists x, loop_pos n (pv2T_reg1_up_round p v) (T, r, 0%Z) = inr x.
Proof. exact @up_ends. Qed.
Print Assumptions C37_pv_up.
Theorem C37_pv_down : forall {N : Arith} (p v T r : num) (n : positive), (1000001 <= n)%positive ->
  exists x, loop_pos n (pv2T_reg1_down_round p v) (T, r, 0%Z) = inr x.
Proof. exact @down_ends. Qed.
Print Assumptions C37_pv_down.
Theorem C37_pv_zoom : forall {N : Arith} (p v Tm T v0 : num) (n : positive),
  loop_pos n (pv2T_reg2_zoom_round p v Tm) (T, v0, 0%Z) = inr (if ltb v v0 then sub T (lit 0.001%dec) else add T (lit 0.001%dec)).
Proof. exact @zoom_once. Qed.
Print Assumptions C37_pv_zoom.
Example C37_up_example : exists x, loop_pos 1000001 (@pv2T_reg1_up_round (FArith RefLibm) 3%float (float_of_dec 0.001)) (float_of_dec 623.1, 1%float, 0%Z) = inr (inl x).
Proof. eexists. vm_compute. reflexivity. Qed.

(* C38, full statement: hs returns for every input,
     forall (h s : float) (args : o_id_region_args),
       exists fuel v, @call (FArith L) fuel HS h s args = Some v.
   It is false for an ordinary wet state: at h = 1700 kJ/kg, s = 3.825043 kJ/(kg K) the library
   answers region 4, and every other property starts a pressure search that falls into a cycle
   of four pressures around 16.529 MPa and never ends.  (With the test library of the model.) *)
Theorem C38_refuted : exists (h s : float), forall (fuel : positive) (a : o_id_region_args),
  In (args_region a) [REGION_NONE; 4%Z] -> ~ In (args_o_id a) [OH; OS; OR] ->
  @call (FArith RefLibm) fuel HS h s a = None.
Proof. exact hs_never. Qed.
Print Assumptions C38_refuted.
Example C38_cycle : @call (FArith RefLibm) 1 HS (float_of_dec 1700) (float_of_dec 3.825043) (from_i32 OR) = Some (float_of_Z 4) /\
  forall fuel, @call (FArith RefLibm) fuel HS (float_of_dec 1700) (float_of_dec 3.825043) (from_i32 OT) = None.
Proof.
  split; [vm_compute; reflexivity|]. exact (fun fuel => hs_runs fuel (from_i32 OT) (or_introl eq_refl)
    (fun H => match H with or_introl e => ltac:(discriminate e) | or_intror (or_introl e) => ltac:(discriminate e)
      | or_intror (or_intror (or_introl e)) => ltac:(discriminate e) | or_intror (or_intror (or_intror e)) => e end)).
Qed.

(* what holds: hs returns whenever its region (given, or found from h and s) is not 4, or the
   entropy is in the range of the explicit equation, s''(623.15 K) to s''(273.15 K); so the loop
   above is the only way not to return *)
Theorem C38_returns : forall {N : Arith} (fuel : positive) (h s : num) (a : o_id_region_args),
  (if Z.eqb (args_region a) REGION_NONE then hs_sub_region h s else args_region a) <> 4%Z \/
  (ltb (lit 5.210887825) s = true /\ ltb s (lit 9.155759395) = true) ->
  exists v, call fuel HS h s a = Some v.
Proof. exact @hs_known. Qed.
Print Assumptions C38_returns.
Example C38_wet : exists v, @call (FArith RefLibm) 1 HS 2000%float 6%float (from_i32 OT) = Some v /\
  PrimFloat.ltb 50 v = true /\ PrimFloat.ltb v 100 = true.
Proof. eexists. vm_compute. repeat split; reflexivity. Qed.

(* the bisection that bounds the pressure ends within 21 rounds, for every h and maths library *)
Theorem C38_bounds : forall (L : Libm) (fuel : positive) (h : float), (21 <= fuel)%positive ->
  exists r, @hs2T_reg4_liquid (FArith L) fuel h = Some r.
Proof. exact liquid_some. Qed.
Print Assumptions C38_bounds.
