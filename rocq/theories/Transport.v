(* Generated by tools/rs2v.py from src/common/transport_further.rs, src/common/propertry_pairs.rs.
   Every definition cites the source lines it models; see tools/rs2v.py for the
   translation rules (mutable variables become let-rebinding, match on constants
   becomes an if-chain in source order, for loops over ranges become fold_left). *)
From Coq Require Import ZArith List Bool String.
From Verif Require Import Num Algo Constant.
Import ListNotations.
Open Scope num_scope.

(* src/common/propertry_pairs.rs:33-36 *)
Inductive PAIRS := PAIRS_pT | PAIRS_Td.

(* the pattern test [PAIRS::x] of src/common/propertry_pairs.rs:42-100 *)
Definition PAIRS_eqb (a b : PAIRS) : bool :=
  match a, b with
  | PAIRS_pT, PAIRS_pT | PAIRS_Td, PAIRS_Td => true
  | _, _ => false
  end.

Section Model.
Context {N : Arith}.

(* src/common/transport_further.rs:17-19 *)
Definition prandtl_number (dv : num) (cp : num) (tc : num) : num :=
  ((#1.0E+3 * dv) * cp) / tc.

(* src/common/transport_further.rs:26-28 *)
Definition thermal_diffusivity (tc : num) (cp : num) (d : num) : num :=
  (#1.0e-3 * tc) / (cp * d).

(* src/common/transport_further.rs:48-70  ijH *)
Definition viscosity_ijH : list (Z * Z * num) :=
  [(0%Z, 0%Z, #5.20094e-1);
     (1%Z, 0%Z, #8.50895e-2);
     (2%Z, 0%Z, #(-1.08374));
     (3%Z, 0%Z, #(-2.89555e-1));
     (0%Z, 1%Z, #2.22531e-1);
     (1%Z, 1%Z, #9.99115e-1);
     (2%Z, 1%Z, #1.88797);
     (3%Z, 1%Z, #1.26613);
     (5%Z, 1%Z, #1.20573e-1);
     (0%Z, 2%Z, #(-2.81378e-1));
     (1%Z, 2%Z, #(-9.06851e-1));
     (2%Z, 2%Z, #(-7.72479e-1));
     (3%Z, 2%Z, #(-4.89837e-1));
     (4%Z, 2%Z, #(-2.57040e-1));
     (0%Z, 3%Z, #1.61913e-1);
     (1%Z, 3%Z, #2.57399e-1);
     (0%Z, 4%Z, #(-3.25372e-2));
     (3%Z, 4%Z, #6.98452e-2);
     (4%Z, 5%Z, #8.72102e-3);
     (3%Z, 6%Z, #(-4.35673e-3));
     (5%Z, 6%Z, #(-5.93264e-4))].

(* src/common/transport_further.rs:36-76 *)
Definition viscosity (rho : num) (T : num) : num :=
  let Tr := T / TC_WATER in
  let Dr := rho / DC_WATER in
  let no := [#1.67752; #2.20462; #0.6366564; #(-0.241605)] in
  let suma := #0.0 in
  let suma := fold_left (fun suma i =>
      suma + ((nth i no (#0.0)) / (powi Tr (Z.of_nat i))))
    (seq 0 4) suma in
  let fi0 := (#100.0 * (nsqrt Tr)) / suma in
  let suma := poly_powi ((#1.0 / Tr) - #1.0) (Dr - #1.0) viscosity_ijH in
  let fi1 := nexp (Dr * suma) in
  let fi2 := #1.0 in
  ((fi0 * fi1) * fi2) * #1.0e-6.

(* src/common/transport_further.rs:87-87  no *)
Definition thcond_no : list num :=
  [#2.443221e-3; #1.323095e-2; #6.770357e-3; #(-3.454586e-3); #4.096266e-4].

(* src/common/transport_further.rs:95-101  nij *)
Definition thcond_nij : list (list num) :=
  [[#1.60397357; #(-0.646013523); #0.111443906; #0.102997357; #(-0.0504123634); #0.00609859258]; [#2.33771842; #(-2.78843778); #1.53616167; #(-0.463045512); #0.0832827019; #(-0.00719201245)]; [#2.19650529; #(-4.54580785); #3.55777244; #(-1.40944978); #0.275418278; #(-0.0205938816)]; [#(-1.21051378); #1.60812989; #(-0.621178141); #0.0716373224; #0.0; #0.0]; [#(-2.7203370); #4.57586331; #(-3.18369245); #1.1168348; #(-0.19268305); #0.012913842]].

(* src/common/transport_further.rs:83-113 *)
Definition thcond (rho : num) (T : num) : num :=
  let d := rho / DC_WATER in
  let Tr := T / TC_WATER in
  let suma := #0.0 in
  let suma := fold_left (fun suma i =>
      suma + ((nth i thcond_no (#0.0)) / (powi Tr (Z.of_nat i))))
    (seq 0 5) suma in
  let L0 := (nsqrt Tr) / suma in
  let suma := #0.0 in
  let suma := fold_left (fun suma i =>
      let suma2 := #0.0 in
      let suma2 := fold_left (fun suma2 j =>
          suma2 + ((nth j (nth i thcond_nij []) (#0.0)) * (powi (d - #1.0) (Z.of_nat j))))
        (seq 0 6) suma2 in
      suma + ((powi ((#1.0 / Tr) - #1.0) (Z.of_nat i)) * suma2))
    (seq 0 5) suma in
  let L1 := nexp (d * suma) in
  let L2 := #0.0 in
  #1e-3 * ((L0 * L1) + L2).

(* src/common/transport_further.rs:119-126 *)
Definition surface_tension (T : num) : num :=
  if (#248.15 <=? T) && (T <=? TC_WATER) then
    let Tr := T / TC_WATER in
    #1e-3 * ((#235.8 * (powf (#1.0 - Tr) (#1.256))) * (#1.0 - (#0.625 * (#1.0 - Tr))))
  else 
    ofZ INVALID_VALUE.

(* src/common/transport_further.rs:144-144  I *)
Definition static_dielectric_I : list Z :=
  [1%Z;
     1%Z;
     1%Z;
     2%Z;
     3%Z;
     3%Z;
     4%Z;
     5%Z;
     6%Z;
     7%Z;
     10%Z].

(* src/common/transport_further.rs:145-145  J *)
Definition static_dielectric_J : list num :=
  [#0.25;
     #1.0;
     #2.5;
     #1.5;
     #1.5;
     #2.5;
     #2.0;
     #2.0;
     #5.0;
     #0.5;
     #10.0].

(* src/common/transport_further.rs:147-150  n *)
Definition static_dielectric_n : list num :=
  [#0.978224486826;
     #(-0.957771379375);
     #0.237511794148;
     #0.714692244396;
     #(-0.298217036956);
     #(-0.108863472196);
     #0.949327488264e-1;
     #(-0.980469816509e-2);
     #0.165167634970e-4;
     #0.937359795772e-4;
     #(-0.12317921872e-9);
     #0.196096504426e-2].

(* src/common/transport_further.rs:134-161 *)
Definition static_dielectric (rho : num) (T : num) : num :=
  let k := #1.380658e-23 in
  let Na := #6.0221367e23 in
  let alfa := #1.636e-40 in
  let epsilon0 := #8.854187817e-12 in
  let mu := #6.138e-30 in
  let M := #0.018015268 in
  let d := rho / DC_WATER in
  let Tr := TC_WATER / T in
  let g := #1.0 + (((nth (11%nat) static_dielectric_n (#0.0)) * d) / (powf (((TC_WATER / #228.0) / Tr) - #1.0) (#1.2))) in
  let g := fold_left (fun g i =>
      g + (((nth i static_dielectric_n (#0.0)) * (powi d (nth i static_dielectric_I 0%Z))) * (powf Tr (nth i static_dielectric_J (#0.0)))))
    (seq 0 11) g in
  let A := (((((((Na * mu) * mu) * rho) * g) / M) / epsilon0) / k) / T in
  let B := ((((Na * alfa) * rho) / #3.0) / M) / epsilon0 in
  let c := ((((#9.0 + (#2.0 * A)) + (#18.0 * B)) + (A * A)) + ((#10.0 * A) * B)) + ((#9.0 * B) * B) in
  ((((#1.0 + A) + (#5.0 * B)) + (nsqrt c)) / #4.0) / (#1.0 - B).

(* src/common/propertry_pairs.rs:40-107 *)
Definition pair_transport_reg (v1 : num) (v2 : num) (o_id : Z) (pair : PAIRS) (fn_thermal : (num -> num -> Z -> num)) : num :=
  if Z.eqb o_id OST then
    if PAIRS_eqb pair PAIRS_Td then
      surface_tension v1
    else 
      surface_tension v2
  else if Z.eqb o_id ODV then
    if PAIRS_eqb pair PAIRS_Td then
      viscosity v2 v1
    else 
      viscosity (fn_thermal v1 v2 OD) v2
  else if Z.eqb o_id OKV then
    if PAIRS_eqb pair PAIRS_Td then
      v2 * (viscosity v2 v1)
    else 
      let d := fn_thermal v1 v2 OD in
      (viscosity d v2) / d
  else if Z.eqb o_id OTC then
    if PAIRS_eqb pair PAIRS_Td then
      thcond v2 v1
    else 
      let d := fn_thermal v1 v2 OD in
      thcond d v2
  else if Z.eqb o_id OSDC then
    if PAIRS_eqb pair PAIRS_Td then
      static_dielectric v2 v1
    else 
      let d := fn_thermal v1 v2 OD in
      static_dielectric d v2
  else if Z.eqb o_id OTD then
    if PAIRS_eqb pair PAIRS_Td then
      let tc := thcond v2 v1 in
      let cp := fn_thermal v1 v2 OCP in
      thermal_diffusivity tc cp v2
    else 
      let d := fn_thermal v1 v2 OD in
      let tc := thcond d v2 in
      let cp := fn_thermal v1 v2 OCP in
      thermal_diffusivity tc cp d
  else if Z.eqb o_id OPR then
    if PAIRS_eqb pair PAIRS_Td then
      let tc := thcond v2 v1 in
      let cp := fn_thermal v1 v2 OCP in
      let dv := viscosity v2 v1 in
      prandtl_number dv cp tc
    else 
      let d := #1.0 / v2 in
      let dv := viscosity d v2 in
      let cp := fn_thermal v1 v2 OCP in
      let tc := thcond d v2 in
      prandtl_number dv cp tc
  else 
    ofZ INVALID_OUTID.

End Model.
