(* Generated by tools/rs2v.py from src/r5/region5_ph_ps_hs.rs, src/r5/region5_pair_ext.rs, src/r5/region5.rs.
   Every definition cites the source lines it models; see tools/rs2v.py for the
   translation rules (mutable variables become let-rebinding, match on constants
   becomes an if-chain in source order, for loops over ranges become fold_left). *)
From Coq Require Import ZArith List Bool String.
From Verif Require Import Num Algo Constant Transport Reg5.
Import ListNotations.
Open Scope num_scope.

Section Model.
Context {N : Arith}.

(* src/r5/region5_ph_ps_hs.rs:11-37 *)
Definition ph2T_reg5 (p : num) (h : num) : num :=
  let T := #(-1000.0) in
  let T1 := #0.5 * (#2273.15 + #1073.15) in
  let f1 := h - (pT2h_reg5 p T1) in
  let T :=
    if (nabs f1) >? ESP then
      let T2 := #(-1000.0) in
      let T2 :=
        if f1 >? #0.0 then
          (#1.0 + (f1 / h)) * T1
        else (#1.0 - (f1 / h)) * T1 in
      let f2 := h - (pT2h_reg5 p T2) in
      rtsec2 pT2h_reg5 p h T1 T2 f1 f2 ESP I_MAX
    else T1 in
  if T <? T_MIN5 then
    T_MIN5
  else if T >? T_MAX5 then
    T_MAX5
  else T.

(* src/r5/region5_ph_ps_hs.rs:39-65 *)
Definition ps2T_reg5 (p : num) (s : num) : num :=
  let T := #(-1000.0) in
  let T1 := #0.5 * (#2273.15 + #1073.15) in
  let f1 := s - (pT2s_reg5 p T1) in
  let T :=
    if (nabs f1) >? ESP then
      let T2 := #(-1000.0) in
      let T2 :=
        if f1 >? #0.0 then
          (#1.0 + (f1 / s)) * T1
        else (#1.0 - (f1 / s)) * T1 in
      let f2 := s - (pT2s_reg5 p T2) in
      rtsec2 pT2s_reg5 p s T1 T2 f1 f2 ESP I_MAX
    else T1 in
  if T <? T_MIN5 then
    T_MIN5
  else if T >? T_MAX5 then
    T_MAX5
  else T.

(* src/r5/region5_ph_ps_hs.rs:68-71 *)
Definition ph2s_reg5 (p : num) (h : num) : num :=
  let T := ph2T_reg5 p h in
  pT2s_reg5 p T.

(* src/r5/region5_ph_ps_hs.rs:73-98 *)
Definition hs2p_reg5 (h : num) (s : num) : num :=
  let p := #(-1000.0) in
  let p1 := #0.5 * (P_MIN5 + P_MAX5) in
  let f1 := s - (ph2s_reg5 p1 h) in
  let p :=
    if (nabs f1) >? ESP then
      let p2 := #0.0 in
      let p2 :=
        if f1 >? #0.0 then
          (#1.0 + (f1 / s)) * p1
        else (#1.0 - (f1 / s)) * p1 in
      let f2 := s - (ph2s_reg5 p2 h) in
      rtsec1 ph2s_reg5 h s p1 p2 f1 f2 ESP I_MAX
    else p1 in
  if p <? P_MIN5 then
    P_MIN5
  else if p >? P_MAX5 then
    P_MAX5
  else p.

(* src/r5/region5_pair_ext.rs:10-29 *)
Definition pv2T_reg5 (p : num) (v : num) : num :=
  let T1 := T_MIN5 in
  let v1 := pT2v_reg5 p T1 in
  let T2 := T_MAX5 in
  let v2 := pT2v_reg5 p T2 in
  let f := v - (pT2v_reg5 p T2) in
  let T1 :=
    if (v2 - v1) !=? #0.0 then
      T1 + (((T2 - T1) * (v - v1)) / (v2 - v1))
    else T1 in
  let f1 := v - (pT2v_reg5 p T1) in
  let T := rtsec2 pT2v_reg5 p v T1 T2 f1 f ESP I_MAX in
  if T <? T_MIN5 then
    T_MIN5
  else if T >? T_MAX5 then
    T_MAX5
  else T.

(* src/r5/region5_pair_ext.rs:91-110 *)
Definition Th2p_reg5 (T : num) (h : num) : num :=
  let p1 := P_MIN5 in
  let h1 := pT2h_reg5 p1 T in
  let p2 := P_MAX5 in
  let h2 := pT2h_reg5 p2 T in
  let f2 := h - h2 in
  let p1 := p2 - ((p2 - p1) * (nabs ((h - h2) / (h1 - h2)))) in
  let f1 := h - (pT2h_reg5 p1 T) in
  if (nabs f1) <? ESP then
    p1
  else 
  let p := rtsec1 pT2h_reg5 T h p1 p2 f1 f2 ESP I_MAX in
  let p :=
    if p >? P_MAX5 then
      P_MAX5
    else p in
  if p <? P_MIN5 then
    P_MIN5
  else p.

(* src/r5/region5_pair_ext.rs:113-136 *)
Definition Ts2p_reg5 (T : num) (s : num) : num :=
  let p1 := P_MIN5 in
  let s1 := pT2s_reg5 p1 T in
  let f1 := s - s1 in
  let p2 := P_MAX5 in
  let s2 := pT2s_reg5 p2 T in
  let f2 := s - s2 in
  let p1 := p2 - (((p2 - p1) * (s - s2)) / (s1 - s2)) in
  let p1 :=
    if p1 <? P_MIN5 then
      P_MIN5
    else p1 in
  let s1 := pT2s_reg5 p1 T in
  let f1 := s - s1 in
  if (nabs f1) <? ESP then
    p1
  else 
  let p := rtsec1 pT2s_reg5 T s p1 p2 f1 f2 ESP I_MAX in
  if p >? P_MAX5 then
    P_MAX5
  else if p <? P_MIN5 then
    P_MIN5
  else p.

(* src/r5/region5_pair_ext.rs:54-70, the search for a bracket *)
Definition bracket_reg5 (fuel : positive) (T v p1 p2 v1 v2 : num) (vbounded : bool)
  : option (num + (num * num * num * num)) :=
  match loop_pos fuel
    (fun '(p1, p2, v1, v2, vbounded) =>
       if negb vbounded then
         let p1 := p2 in
         let v1 := v2 in
         let p2 := #5.0 * p1 in
         let '(p2, vbounded) := if p2 >=? P_MAX5 then (P_MAX5, true) else (p2, vbounded) in
         let v2 := pT2v_reg5 p2 T in
         if v =? v2 then inr (inl p2)
         else
         let vbounded := if (v >? v2) && (v <? v1) then true else vbounded in
         inl (p1, p2, v1, v2, vbounded)
       else inr (inr (p1, p2, v1, v2))) (p1, p2, v1, v2, vbounded) with
  | inr r => Some r
  | inl _ => None
  end.

(* src/r5/region5_pair_ext.rs:72-88 *)
Definition Tv2p_reg5_finish (T v p1 p2 v1 v2 : num) : num :=
  let f2 := v - v2 in
  let p1 := p2 - (p2 - p1) * (v - v2) / (v1 - v2) in
  let p1 := if p1 <? P_MIN5 then P_MIN5 else p1 in
  let f1 := v - pT2v_reg5 p1 T in
  if nabs f1 <? ESP then p1
  else
  let p := rtsec1 pT2v_reg5 T v p1 p2 f1 f2 ESP I_MAX in
  let p := if p >? P_MAX5 then P_MAX5 else p in
  if p <? P_MIN5 then P_MIN5 else p.

(* src/r5/region5_pair_ext.rs:32-88 *)
Definition Tv2p_reg5 (fuel : positive) (T v : num) : option num :=
  let p1 := P_MIN5 in
  let v1 := pT2v_reg5 p1 T in
  if v =? v1 then Some p1
  else
  let p2 := #10.0 * p1 in
  let p2 := if p2 >? P_MAX5 then P_MAX5 else p2 in
  let v2 := pT2v_reg5 p2 T in
  if v =? v2 then Some p2
  else
  let vbounded := (v >? v2) && (v <? v1) in
  match bracket_reg5 fuel T v p1 p2 v1 v2 vbounded with
  | None => None
  | Some (inl p) => Some p
  | Some (inr (p1, p2, v1, v2)) => Some (Tv2p_reg5_finish T v p1 p2 v1 v2)
  end.

(* src/r5/region5.rs:15-27 *)
Definition pT_thermal_reg5 (p : num) (T : num) (o_id : Z) : num :=
  if Z.eqb o_id OV then
    pT2v_reg5 p T
  else if Z.eqb o_id OD then
    #1.0 / (pT2v_reg5 p T)
  else if Z.eqb o_id OH then
    pT2h_reg5 p T
  else if Z.eqb o_id OS then
    pT2s_reg5 p T
  else if Z.eqb o_id OU then
    pT2u_reg5 p T
  else if Z.eqb o_id OCV then
    pT2cv_reg5 p T
  else if Z.eqb o_id OCP then
    pT2cp_reg5 p T
  else if Z.eqb o_id OW then
    pT2w_reg5 p T
  else 
    pT_ext_reg5 p T o_id.

(* src/r5/region5.rs:8-13 *)
Definition pT_reg5 (p : num) (T : num) (o_id : Z) : num :=
  if ((((((Z.eqb o_id OST) || (Z.eqb o_id ODV)) || (Z.eqb o_id OKV)) || (Z.eqb o_id OTC)) || (Z.eqb o_id OSDC)) || (Z.eqb o_id OPR)) || (Z.eqb o_id OTD) then
    pair_transport_reg p T o_id PAIRS_pT pT_thermal_reg5
  else 
    pT_thermal_reg5 p T o_id.

(* src/r5/region5.rs:29-32 *)
Definition pt_reg5 (p : num) (t : num) (o_id : Z) : num :=
  let T := t + K in
  pT_reg5 p T o_id.

(* src/r5/region5.rs:34-40 *)
Definition ph_reg5 (p : num) (h : num) (o_id : Z) : num :=
  let T := ph2T_reg5 p h in
  if Z.eqb o_id OT then
    T - #273.15
  else 
  pT_reg5 p T o_id.

(* src/r5/region5.rs:42-48 *)
Definition ps_reg5 (p : num) (s : num) (o_id : Z) : num :=
  let T := ps2T_reg5 p s in
  if Z.eqb o_id OT then
    T - #273.15
  else 
  pT_reg5 p T o_id.

(* src/r5/region5.rs:50-56 *)
Definition hs_reg5 (h : num) (s : num) (o_id : Z) : num :=
  let p := hs2p_reg5 h s in
  if Z.eqb o_id OP then
    p
  else 
  ph_reg5 p h o_id.

(* src/r5/region5.rs:61-67 *)
Definition pv_reg5 (p : num) (v : num) (o_id : Z) : num :=
  let T := pv2T_reg5 p v in
  if Z.eqb o_id OT then
    T - #273.15
  else 
  pT_reg5 p T o_id.

(* src/r5/region5.rs:82-88 *)
Definition th_reg5 (t : num) (h : num) (o_id : Z) : num :=
  let p := Th2p_reg5 (t + #273.15) h in
  if Z.eqb o_id OP then
    p
  else 
  pT_reg5 p (t + #273.15) o_id.

(* src/r5/region5.rs:91-97 *)
Definition ts_reg5 (t : num) (s : num) (o_id : Z) : num :=
  let p := Ts2p_reg5 (t + #273.15) s in
  if Z.eqb o_id OP then
    p
  else 
  pT_reg5 p (t + #273.15) o_id.

(* src/r5/region5.rs:70-79; [fuel] bounds the bracket search of Tv2p_reg5 *)
Definition tv_reg5 (fuel : positive) (t v : num) (o_id : Z) : option num :=
  if Z.eqb o_id OD then Some (#1.0 / v)
  else
  match Tv2p_reg5 fuel (t + #273.15) v with
  | None => None
  | Some p => Some (if Z.eqb o_id OP then p else pT_reg5 p (t + #273.15) o_id)
  end.

End Model.
