(* C42, C43: transport properties. *)
From Coq Require Import ZArith List Bool Reals Lra.
From Verif Require Import Num Constant Transport Api RealInst Spec TransFacts TransReal.
Import ListNotations.

(* C42, any arithmetic.  Regions 1, 2, 5: kinematic viscosity and thermal diffusivity *)
Theorem C42_okv : forall (N : Arith) fuel (f : api2) (a b dv d : num) (r : Z),
  In (f, r) (list_prod [PT; PH; PS; HS; PV; TH; TS] [1; 2; 5]%Z ++ [(TV, 2%Z)]) ->
  call fuel f a b (from_pair (ODV, r)) = Some dv -> call fuel f a b (from_pair (OD, r)) = Some d ->
  call fuel f a b (from_pair (OKV, r)) = Some (dv / d)%num.
Proof. exact (fun N fuel f a b dv d r => @okv_125 N fuel f a b r dv d). Qed.
Print Assumptions C42_okv.
Theorem C42_otd : forall (N : Arith) fuel (f : api2) (a b tc cp d : num) (r : Z),
  In (f, r) (list_prod [PT; PH; PS; HS; PV; TH; TS] [1; 2; 5]%Z ++ [(TV, 2%Z)]) ->
  call fuel f a b (from_pair (OTC, r)) = Some tc -> call fuel f a b (from_pair (OCP, r)) = Some cp ->
  call fuel f a b (from_pair (OD, r)) = Some d ->
  call fuel f a b (from_pair (OTD, r)) = Some (#1.0e-3 * tc / (cp * d))%num.
Proof. exact (fun N fuel f a b tc cp d r => @otd_125 N fuel f a b r tc cp d). Qed.
Print Assumptions C42_otd.
(* region 3: thermal diffusivity and Prandtl number *)
Theorem C42_otd_region3 : forall (N : Arith) fuel (f : api2) (a b tc cp d : num), In f [PT; PH; PS; HS; PV; TV; TH; TS] ->
  call fuel f a b (from_pair (OTC, 3%Z)) = Some tc -> call fuel f a b (from_pair (OCP, 3%Z)) = Some cp ->
  call fuel f a b (from_pair (OD, 3%Z)) = Some d ->
  call fuel f a b (from_pair (OTD, 3%Z)) = Some (#1.0e-3 * tc / (cp * d))%num.
Proof. exact @otd_3. Qed.
Print Assumptions C42_otd_region3.
Theorem C42_opr_region3 : forall (N : Arith) fuel (f : api2) (a b dv tc cp : num), In f [PT; PH; PS; HS; PV; TV; TH; TS] ->
  call fuel f a b (from_pair (ODV, 3%Z)) = Some dv -> call fuel f a b (from_pair (OTC, 3%Z)) = Some tc ->
  call fuel f a b (from_pair (OCP, 3%Z)) = Some cp ->
  call fuel f a b (from_pair (OPR, 3%Z)) = Some (#1.0E+3 * dv * cp / tc)%num.
Proof. exact @opr_3. Qed.
Print Assumptions C42_opr_region3.
(* what the library does instead for OKV in region 3 (multiplies by the density) ... *)
Theorem C42_okv_region3 : forall (N : Arith) fuel (f : api2) (a b dv d : num), In f [PT; PH; PS; HS; PV; TV; TH; TS] ->
  call fuel f a b (from_pair (ODV, 3%Z)) = Some dv -> call fuel f a b (from_pair (OD, 3%Z)) = Some d ->
  call fuel f a b (from_pair (OKV, 3%Z)) = Some (d * dv)%num.
Proof. exact @okv_3. Qed.
Print Assumptions C42_okv_region3.
(* ... and for OPR in regions 1, 2, 5 (viscosity and conductivity at density 1/T) *)
Theorem C42_opr : forall (N : Arith) fuel (f : api2) (a b t cp : num) (r : Z),
  In (f, r) (list_prod [TH; TS] [1; 2; 5]%Z ++ [(PT, 1); (PT, 2); (PT, 5)]%Z) ->
  t = (match f with PT => b | _ => a end) -> call fuel f a b (from_pair (OCP, r)) = Some cp ->
  let T := (t + #273.15)%num in
  call fuel f a b (from_pair (OPR, r)) = Some (#1.0E+3 * viscosity (#1.0 / T) T * cp / thcond (#1.0 / T) T)%num.
Proof. exact (fun N fuel f a b t cp r => @opr_125 N fuel f a b r t cp). Qed.
Print Assumptions C42_opr.
(* a call meeting the hypotheses of the statements above, and returning values *)
Example C42_example : forall N : Arith, exists dv d : num, call 1 PT (#3.0)%num (#300.0)%num (from_pair (ODV, 1%Z)) = Some dv /\
  call 1 PT (#3.0)%num (#300.0)%num (from_pair (OD, 1%Z)) = Some d.
Proof. intros N. do 2 eexists. split; reflexivity. Qed.
Example C42_example3 : forall N : Arith, exists dv d tc cp : num, call 1 TV (#380.0)%num (#0.002)%num (from_pair (ODV, 3%Z)) = Some dv /\
  call 1 TV (#380.0)%num (#0.002)%num (from_pair (OD, 3%Z)) = Some d /\
  call 1 TV (#380.0)%num (#0.002)%num (from_pair (OTC, 3%Z)) = Some tc /\ call 1 TV (#380.0)%num (#0.002)%num (from_pair (OCP, 3%Z)) = Some cp.
Proof. intros N. do 4 eexists. repeat split; reflexivity. Qed.

Open Scope R_scope.
(* full statement for OKV, false in region 3: at 650 K, 500 kg/m3 the answer is 250000 times ODV/OD *)
Theorem C42_okv_region3_refuted : exists t v dv d kv, @call RArith 1 TV t v (from_pair (ODV, 3%Z)) = Some dv /\
  @call RArith 1 TV t v (from_pair (OD, 3%Z)) = Some d /\ @call RArith 1 TV t v (from_pair (OKV, 3%Z)) = Some kv /\
  0 < dv /\ 0 < d /\ kv = 250000 * (dv / d).
Proof. exact okv3_refuted. Qed.
Print Assumptions C42_okv_region3_refuted.
(* full statement for OPR, false in region 1: at 3 MPa, 300 K the answer is below 2.4, 1000 ODV OCP / OTC above 5.6 *)
Theorem C42_opr_refuted : exists p t dv cp tc pr, @call RArith 1 PT p t (from_pair (ODV, 1%Z)) = Some dv /\
  @call RArith 1 PT p t (from_pair (OCP, 1%Z)) = Some cp /\ @call RArith 1 PT p t (from_pair (OTC, 1%Z)) = Some tc /\
  @call RArith 1 PT p t (from_pair (OPR, 1%Z)) = Some pr /\ 1000 * dv * cp / tc > 5.6 /\ pr < 2.4.
Proof. exact opr_refuted. Qed.
Print Assumptions C42_opr_refuted.

(* C43: in any arithmetic the surface tension answered by pt, tv, th, ts is a function of the temperature ... *)
Theorem C43_temperature : forall (N : Arith) fuel (f : api2) (a b x : num) (r : Z),
  In (f, r) (list_prod [PT; TH; TS; TV] [1; 2; 3; 5]%Z) -> call fuel f a b (from_pair (OST, r)) = Some x ->
  x = surface_tension ((match f with PT => b | _ => a end) + #273.15)%num.
Proof. exact (fun N fuel f a b x r => @ost_T N fuel f a b r x). Qed.
Print Assumptions C43_temperature.
Theorem C43_pt : forall fuel p t r, In r [1; 2; 3; 5]%Z ->
  @call RArith fuel PT p t (from_pair (OST, r)) = Some (@surface_tension RArith (t + 273.15)%R).
Proof. exact pt_ost. Qed.
Print Assumptions C43_pt.
(* ... rejected outside the range, *)
Theorem C43_range : forall (N : Arith) (T : num), (#248.15 <=? T)%num = false \/ (T <=? TC_WATER)%num = false ->
  surface_tension T = ofZ INVALID_VALUE.
Proof. exact @ost_range. Qed.
Print Assumptions C43_range.
Theorem C43_outside : forall T : R, T < 248.15 \/ 647.096 < T -> @surface_tension RArith T = -9999.
Proof. exact st_out. Qed.
Print Assumptions C43_outside.
(* zero at the critical temperature, positive and decreasing below *)
Theorem C43_critical : @surface_tension RArith 647.096 = 0.
Proof. exact st_crit. Qed.
Print Assumptions C43_critical.
Theorem C43_positive : forall T : R, 248.15 <= T < 647.096 -> 0 < @surface_tension RArith T.
Proof. exact st_pos. Qed.
Print Assumptions C43_positive.
Theorem C43_decreasing : forall T1 T2 : R, 248.15 <= T1 -> T1 < T2 -> T2 <= 647.096 ->
  @surface_tension RArith T2 < @surface_tension RArith T1.
Proof. exact st_decr. Qed.
Print Assumptions C43_decreasing.
Example C43_example : (248.15 <= 300 < 647.096 /\ 300 < 301 /\ 301 <= 647.096 /\ 200 < 248.15)%R. Proof. lra. Qed.
