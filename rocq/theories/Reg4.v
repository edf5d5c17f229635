(* Generated by tools/rs2v.py from src/r4/region4_pTx.rs, src/r4/region4_pair_ext.rs, src/r4/region4.rs, src/r4/region4_T_hs.rs.
   Every definition cites the source lines it models; see tools/rs2v.py for the
   translation rules (mutable variables become let-rebinding, match on constants
   becomes an if-chain in source order, for loops over ranges become fold_left). *)
From Coq Require Import ZArith List Bool String.
From Verif Require Import Num Algo Constant R4Sat Reg1 Reg2 Reg3Td Boundaries Reg1Back Reg2Back Reg3V Reg3.
Import ListNotations.
Open Scope num_scope.

Section Model.
Context {N : Arith}.

(* src/r4/region4_pTx.rs:17-48 *)
Definition p2sat_water (p : num) (o_id : Z) : num :=
  if Z.eqb o_id OP then
    p
  else 
  let T := T_saturation p in
  if Z.eqb o_id OT then
    T - #273.15
  else 
  if (p >=? P_MIN) && (p <=? Ps_623) then
    pT_reg1 p T o_id
  else 
    let v := #0.0 in
    let v :=
      if (nabs (p - PC_WATER)) <? FLOAT_ERROR then
        #1.0 / #322.0
      else pT2v_sat_reg3 p T (#0.0) in
    if Z.eqb o_id OV then
      v
    else 
    let d := #1.0 / v in
    if Z.eqb o_id OD then
      d
    else 
    Td_reg3 T d o_id.

(* src/r4/region4_pTx.rs:51-81 *)
Definition p2sat_steam (p : num) (o_id : Z) : num :=
  if Z.eqb o_id OP then
    p
  else 
  let T := T_saturation p in
  if Z.eqb o_id OT then
    T - #273.15
  else 
  if (p >=? P_MIN) && (p <=? Ps_623) then
    pT_reg2 p T o_id
  else 
    let v := #0.0 in
    let v :=
      if (nabs (p - PC_WATER)) <? FLOAT_ERROR then
        #1.0 / #322.0
      else pT2v_sat_reg3 p T (#1.0) in
    if Z.eqb o_id OV then
      v
    else 
    let d := #1.0 / v in
    if Z.eqb o_id OD then
      d
    else 
    Td_reg3 T d o_id.

(* src/r4/region4_pTx.rs:83-124 *)
Definition T2sat_water (T : num) (o_id : Z) : num :=
  if Z.eqb o_id OT then
    T
  else 
  let p := #0.0 in
  let p :=
    if (nabs (T - TC_WATER)) <? FLOAT_ERROR then
      PC_WATER
    else p_saturation T in
  if Z.eqb o_id OP then
    p
  else 
  if T <=? #623.15 then
    pT_reg1 p T o_id
  else 
    let v := #0.0 in
    let k1 := fun (v : num) =>
      if Z.eqb o_id OV then
        v
      else 
      let d := #1.0 / v in
      if Z.eqb o_id OD then
        d
      else 
      Td_reg3 T d o_id in
    if (nabs (T - TC_WATER)) <? FLOAT_ERROR then
      if Z.eqb o_id OS then
        SC_WATER
      else 
      if Z.eqb o_id OH then
        HC_WATER
      else 
      let v := #1.0 / #322.0 in
      k1 v
    else 
    let v := pT2v_sat_reg3 p T (#0.0) in
    k1 v.

(* src/r4/region4_pTx.rs:126-166 *)
Definition T2sat_steam (T : num) (o_id : Z) : num :=
  if Z.eqb o_id OT then
    T
  else 
  let p := #0.0 in
  let p :=
    if (nabs (T - TC_WATER)) <? FLOAT_ERROR then
      PC_WATER
    else p_saturation T in
  if Z.eqb o_id OP then
    p
  else 
  if T <=? #623.15 then
    pT_reg2 p T o_id
  else 
    let v := #0.0 in
    let k1 := fun (v : num) =>
      let d := #1.0 / v in
      if Z.eqb o_id OD then
        d
      else 
      Td_reg3 T d o_id in
    if (nabs (T - TC_WATER)) <? FLOAT_ERROR then
      if Z.eqb o_id OS then
        SC_WATER
      else 
      if Z.eqb o_id OH then
        HC_WATER
      else 
      let v := #1.0 / #322.0 in
      if Z.eqb o_id OV then
        v
      else 
      k1 v
    else 
    let v := pT2v_sat_reg3 p T (#1.0) in
    k1 v.

(* src/r4/region4_pTx.rs:169-198 *)
Definition px_reg4 (p : num) (x : num) (o_id : Z) : num :=
  if x =? #0.0 then
    p2sat_water p o_id
  else 
  if x =? #1.0 then
    p2sat_steam p o_id
  else 
  let r := #0.0 in
  let T := T_saturation p in
  if Z.eqb o_id OT then
    T - #273.15
  else if (((((((Z.eqb o_id OH) || (Z.eqb o_id OS)) || (Z.eqb o_id OV)) || (Z.eqb o_id OD)) || (Z.eqb o_id OU)) || (Z.eqb o_id OF)) || (Z.eqb o_id OG)) || (Z.eqb o_id OE) then
    let rl := #0.0 in
    let rv := #0.0 in
    let '(rl, rv) :=
      if T >? #623.15 then
        let dl := #1.0 / (pT2v_sat_reg3 p T (#0.0)) in
        let rl := Td_reg3 T dl o_id in
        let dv := #1.0 / (pT2v_sat_reg3 p T (#1.0)) in
        let rv := Td_reg3 T dv o_id in
        (rl, rv)
      else let rl := pT_reg1 p T o_id in
        let rv := pT_reg2 p T o_id in
        (rl, rv) in
    rl + (x * (rv - rl))
  else 
  ofZ INVALID_OUTID.

(* src/r4/region4_pTx.rs:200-231 *)
Definition Tx_reg4 (T : num) (x : num) (o_id : Z) : num :=
  let r := #0.0 in
  let p := p_saturation T in
  if Z.eqb o_id OP then
    p
  else 
  if x =? #0.0 then
    T2sat_water T o_id
  else 
  if x =? #1.0 then
    T2sat_steam T o_id
  else 
  let r := #0.0 in
  if (((((((Z.eqb o_id OH) || (Z.eqb o_id OS)) || (Z.eqb o_id OV)) || (Z.eqb o_id OD)) || (Z.eqb o_id OU)) || (Z.eqb o_id OF)) || (Z.eqb o_id OG)) || (Z.eqb o_id OE) then
    let rl := #0.0 in
    let rv := #0.0 in
    let '(rl, rv) :=
      if T >? #623.15 then
        let dl := #1.0 / (pT2v_sat_reg3 p T (#0.0)) in
        let rl := Td_reg3 T dl o_id in
        let dv := #1.0 / (pT2v_sat_reg3 p T (#1.0)) in
        let rv := Td_reg3 T dv o_id in
        (rl, rv)
      else let rl := pT_reg1 p T o_id in
        let rv := pT_reg2 p T o_id in
        (rl, rv) in
    rl + (x * (rv - rl))
  else 
  ofZ INVALID_OUTID.

(* src/r4/region4_pair_ext.rs:10-14 *)
Definition pv2x_reg4 (p : num) (v : num) : num :=
  let v_sat_w := p2sat_water p OV in
  let v_sat_s := p2sat_steam p OV in
  (v - v_sat_w) / (v_sat_s - v_sat_w).

(* src/r4/region4_pair_ext.rs:17-21 *)
Definition Tv2x_reg4 (T : num) (v : num) : num :=
  let v_sat_w := T2sat_water T OV in
  let v_sat_s := T2sat_steam T OV in
  (v - v_sat_w) / (v_sat_s - v_sat_w).

(* src/r4/region4_pair_ext.rs:24-28 *)
Definition Th2x_reg4 (T : num) (h : num) : num :=
  let h_sat_w := T2sat_water T OH in
  let h_sat_s := T2sat_steam T OH in
  (h - h_sat_w) / (h_sat_s - h_sat_w).

(* src/r4/region4_pair_ext.rs:31-35 *)
Definition Ts2x_reg4 (T : num) (s : num) : num :=
  let s_sat_w := T2sat_water T OS in
  let s_sat_s := T2sat_steam T OS in
  (s - s_sat_w) / (s_sat_s - s_sat_w).

(* src/r4/region4.rs:11-13 *)
Definition p_sat (t : num) : num :=
  p_saturation (t + K).

(* src/r4/region4.rs:15-17 *)
Definition t_sat (p : num) : num :=
  (T_saturation p) - K.

(* src/r4/region4.rs:20-26 *)
Definition pT_reg4 (p : num) (T : num) (o_id : Z) : num :=
  if (T =? TC_WATER) && (p =? PC_WATER) then
    Td_reg3 TC_WATER DC_WATER o_id
  else 
    #4.0.

(* src/r4/region4.rs:28-36 *)
Definition ph_reg4 (p : num) (h : num) (o_id : Z) : num :=
  let h1 := p2sat_water p OH in
  let h2 := p2sat_steam p OH in
  let x := (h - h1) / (h2 - h1) in
  if Z.eqb o_id OX then
    x
  else 
  px_reg4 p x o_id.

(* src/r4/region4.rs:38-47 *)
Definition ps_reg4 (p : num) (s : num) (o_id : Z) : num :=
  let s1 := p2sat_water p OS in
  let s2 := p2sat_steam p OS in
  let x := (s - s1) / (s2 - s1) in
  if Z.eqb o_id OX then
    x
  else 
  px_reg4 p x o_id.

(* src/r4/region4.rs:81-87 *)
Definition pv_reg4 (p : num) (v : num) (o_id : Z) : num :=
  let x := pv2x_reg4 p v in
  if Z.eqb o_id OX then
    x
  else 
  px_reg4 p x o_id.

(* src/r4/region4.rs:90-96 *)
Definition tv_reg4 (t : num) (v : num) (o_id : Z) : num :=
  let x := Tv2x_reg4 (t + #273.15) v in
  if Z.eqb o_id OX then
    x
  else 
  Tx_reg4 (t + #273.15) x o_id.

(* src/r4/region4.rs:99-105 *)
Definition th_reg4 (t : num) (h : num) (o_id : Z) : num :=
  let x := Th2x_reg4 (t + #273.15) h in
  if Z.eqb o_id OX then
    x
  else 
  Tx_reg4 (t + #273.15) x o_id.

(* src/r4/region4.rs:108-114 *)
Definition ts_reg4 (t : num) (s : num) (o_id : Z) : num :=
  let x := Ts2x_reg4 (t + #273.15) s in
  if Z.eqb o_id OX then
    x
  else 
  Tx_reg4 (t + #273.15) x o_id.

(* src/r4/region4.rs:117-121 *)
Definition Ty2x_residuals (T : num) (x : num) (y : num) (y_id : Z) : num :=
  let sw := T2sat_water T y_id in
  let ss := T2sat_steam T y_id in
  ((y - sw) / (ss - sw)) - x.

(* src/r4/region4.rs:124-154.  The for loop runs maxiter rounds unless it breaks;
   fr and numIters never influence the result.  State: (Tl, Tr, T, fl).  As in
   Rust, maxiter <= 0 runs no round. *)
Definition bisection_reg4 (x y : num) (y_id : Z) (Tl Tr tol : num) (maxiter : Z) : num :=
  let fl := Ty2x_residuals Tl x y y_id in
  if (maxiter <=? 0)%Z then #0.0
  else
  match loop_pos (Z.to_pos maxiter)
    (fun '(Tl, Tr, T, fl) =>
       let T := #0.5 * (Tl + Tr) in
       let f := Ty2x_residuals T x y y_id in
       if nabs f <? tol then inr T
       else
       if f * fl <? #0.0 then inl (Tl, T, T, fl)
       else inl (T, Tr, T, f)) (Tl, Tr, #0.0, fl) with
  | inr T => T
  | inl (_, _, T, _) => T
  end.

(* src/r4/region4.rs:157-165 *)
Definition hx_reg4 (h : num) (x : num) (o_id : Z) : num :=
  let Tl := T_MIN4 in
  let Tr := T_MAX4 in
  let T := bisection_reg4 x h OH Tl Tr (#0.00001) (1000%Z) in
  if Z.eqb o_id OT then
    T - #273.15
  else 
  Tx_reg4 T x o_id.

(* src/r4/region4.rs:168-176 *)
Definition sx_reg4 (s : num) (x : num) (o_id : Z) : num :=
  let Tl := T_MIN4 in
  let Tr := T_MAX4 in
  let T := bisection_reg4 x s OS Tl Tr (#0.00001) (1000%Z) in
  if Z.eqb o_id OT then
    T - #273.15
  else 
  Tx_reg4 T x o_id.

(* src/r4/region4_T_hs.rs:16-16  s4L_623 *)
Definition region4_T_hs_s4L_623 : num :=
  #3.778281340.

(* src/r4/region4_T_hs.rs:17-17  s4V_623 *)
Definition region4_T_hs_s4V_623 : num :=
  #5.210887825.

(* src/r4/region4_T_hs.rs:19-19  s4L_273 *)
Definition region4_T_hs_s4L_273 : num :=
  #(-1.545495919e-04).

(* src/r4/region4_T_hs.rs:20-20  s4V_273 *)
Definition region4_T_hs_s4V_273 : num :=
  #9.155759395.

(* src/r4/region4_T_hs.rs:25-62  IJn *)
Definition hs2T_reg43_IJn : list (Z * Z * num) :=
  [(0%Z, 0%Z, #0.179882673606601);
     (0%Z, 3%Z, #(-0.267507455199603));
     (0%Z, 12%Z, #0.116276722612600e1);
     (1%Z, 0%Z, #0.147545428713616);
     (1%Z, 1%Z, #(-0.512871635973248));
     (1%Z, 2%Z, #0.421333567697984);
     (1%Z, 5%Z, #0.563749522189870);
     (2%Z, 0%Z, #0.429274443819153);
     (2%Z, 5%Z, #(-0.335704552142140e1));
     (2%Z, 8%Z, #0.108890916499278e2);
     (3%Z, 0%Z, #(-0.248483390456012));
     (3%Z, 2%Z, #0.304153221906390);
     (3%Z, 3%Z, #(-0.494819763939905));
     (3%Z, 4%Z, #0.107551674933261e1);
     (4%Z, 0%Z, #0.733888415457688e-1);
     (4%Z, 1%Z, #0.140170545411085e-1);
     (5%Z, 1%Z, #(-0.106110975998808));
     (5%Z, 2%Z, #0.168324361811875e-1);
     (5%Z, 4%Z, #0.125028363714877e1);
     (5%Z, 16%Z, #0.101316840309509e4);
     (6%Z, 6%Z, #(-0.151791558000712e1));
     (6%Z, 8%Z, #0.524277865990866e2);
     (6%Z, 22%Z, #0.230495545563912e5);
     (8%Z, 1%Z, #0.249459806365456e-1);
     (10%Z, 20%Z, #0.210796467412137e+07);
     (10%Z, 36%Z, #0.366836848613065e9);
     (12%Z, 24%Z, #(-0.144814105365163e9));
     (14%Z, 1%Z, #(-0.179276373003590e-2));
     (14%Z, 28%Z, #0.489955602100459e10);
     (16%Z, 12%Z, #0.471262212070518e3);
     (16%Z, 32%Z, #(-0.829294390198652e11));
     (18%Z, 14%Z, #(-0.171545662263191e4));
     (18%Z, 22%Z, #0.355777682973575e7);
     (18%Z, 36%Z, #0.586062760258436e12);
     (20%Z, 24%Z, #(-0.129887635078195e8));
     (28%Z, 36%Z, #0.317247449371057e11)].

(* src/r4/region4_T_hs.rs:23-71 *)
Definition hs2T_reg43 (h : num) (s : num) : num :=
  if s <? region4_T_hs_s4V_623 then
    ofZ INVALID_S
  else 
  let nu := (h / #2800.0) - #0.119 in
  let sigma := (s / #9.2) - #1.07 in
  let suma := poly_powi nu sigma hs2T_reg43_IJn in
  #550.0 * suma.

(* src/r4/region4_T_hs.rs:88-99, the first loop: (hL, low, high) -> (low, high);
   [None]: still running after [fuel] rounds *)
Definition hs2T_reg4_liquid (fuel : positive) (h : num) : option (num * num) :=
  match loop_pos fuel
    (fun '(hL, p_Low_Bound, p_High_Bound) =>
       if (nabs (hL - h) >? #1.0e-04) && (nabs (p_High_Bound - p_Low_Bound) >? #1.0e-4) then
         let PL := #0.5 * (p_Low_Bound + p_High_Bound) in
         let Tsat := T_saturation PL in
         let hL := pT2h_reg1 PL Tsat in
         if hL >? h then inl (hL, p_Low_Bound, PL)
         else inl (hL, PL, p_High_Bound)
       else inr (p_Low_Bound, p_High_Bound)) (#(-1000.0), P_MIN, Ps_623) with
  | inr r => Some r
  | inl _ => None
  end.

(* src/r4/region4_T_hs.rs:121-136: the mixture entropy at pressure p *)
Definition hs2T_reg4_sss (h p : num) : num :=
  let Tsat := T_saturation p in
  let xs := ph_reg4 p h OX in
  let '(s4v, s4L) :=
    if p <? Ps_623 then (pT2s_reg2 p Tsat, pT2s_reg1 p Tsat)
    else
      let v4v := ph_reg3 p (p2sat_steam p OH) OV in
      let s4v := Td2s_reg3 Tsat (#1.0 / v4v) in
      let v4L := ph_reg3 p (p2sat_water p OH) OV in
      let s4L := Td2s_reg3 Tsat (#1.0 / v4L) in
      (s4v, s4L) in
  xs * s4v + (#1.0 - xs) * s4L.

(* src/r4/region4_T_hs.rs:120-145, the second loop: the last pressure tried *)
Definition hs2T_reg4_iter (fuel : positive) (h s p_Low_Bound p_High_Bound : num) : option num :=
  match loop_pos fuel
    (fun '(p, sss, p_Low_Bound, p_High_Bound) =>
       if nabs (s - sss) >? #1.0e-6 then
         let p := #0.5 * (p_Low_Bound + p_High_Bound) in
         let sss := hs2T_reg4_sss h p in
         if sss <? s then
           inl (p, sss, (#1.0 + (sss - s) / s) * p, p)
         else
           inl (p, sss, p, (#1.0 + (sss - s) / s) * p)
       else inr p) (#0.0, #(-1000.0), p_Low_Bound, p_High_Bound) with
  | inr p => Some p
  | inl _ => None
  end.

(* src/r4/region4_T_hs.rs:73-148 *)
Definition hs2T_reg4 (fuel : positive) (h s : num) : option num :=
  if (s >? region4_T_hs_s4V_623) && (s <? region4_T_hs_s4V_273) then Some (hs2T_reg43 h s)
  else
  match (if (s >? region4_T_hs_s4L_273) && (s <=? region4_T_hs_s4L_623) then hs2T_reg4_liquid fuel h
         else Some (#0.0, #0.0)) with
  | None => None
  | Some (p_Low_Bound, p_High_Bound) =>
      let '(p_Low_Bound, p_High_Bound) :=
        if (s >? region4_T_hs_s4L_623) && (s <=? SC_WATER) then (P_MIN, h2p_sat_reg3 h)
        else (p_Low_Bound, p_High_Bound) in
      let '(p_Low_Bound, p_High_Bound) :=
        if (s >? SC_WATER) && (s <=? region4_T_hs_s4V_623) then (P_MIN, h2p_sat_reg3 h)
        else (p_Low_Bound, p_High_Bound) in
      match hs2T_reg4_iter fuel h s p_Low_Bound p_High_Bound with
      | None => None
      | Some p => Some (T_saturation p)
      end
  end.

(* src/r4/region4.rs:49-73; [fuel] bounds the loops of hs2T_reg4 *)
Definition hs_reg4 (fuel : positive) (h s : num) (o_id : Z) : option num :=
  match hs2T_reg4 fuel h s with
  | None => None
  | Some T => Some (
      if Z.eqb o_id OT then T - K
      else
      let p := p_saturation T in
      if Z.eqb o_id OP then p
      else
      let h1 := p2sat_water p OH in
      let h2 := p2sat_steam p OH in
      let x := (h - h1) / (h2 - h1) in
      if Z.eqb o_id OX then x
      else
      if Z.eqb o_id OT then px_reg4 p x o_id - #273.15
      else px_reg4 p x o_id)
  end.

(* src/r4/region4_T_hs.rs:18-18  h4V_623 *)
Definition region4_T_hs_h4V_623 : num :=
  #2.5635920043e+03.

End Model.
