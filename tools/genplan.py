"""Which source files go into which generated Coq file, plus the hand-modelled
functions (those with while loops) spliced in where the source defines them."""
import os, re

OUT = os.path.join(os.path.dirname(os.path.abspath(__file__)), '..', 'rocq', 'theories')

HAND = {}

HAND['r1/region1_pair_ext.rs'] = [('pv2T_reg1', r'''(* src/r1/region1_pair_ext.rs:59-76, one round of the upward adjustment loop.  [inl T] is the
   early [return T]; [inr (T, r_error)] is the state after the loop.  The counter
   ends the loop after 1000001 rounds, so the bound is never reached first (PropsTerm.v). *)
Definition pv2T_reg1_up_round (p v : num) (st : num * num * Z) : (num * num * Z) + (num + num * num) :=
  let '(T, r_error, steps) := st in
  let T := T + #0.01 in
  if T >? T_MAX1 then inr (inl T)
  else
  let f := v - pT2v_reg1 p T in
  let r_error := f / v in
  if nabs r_error <? #1.0e-8 then inr (inl T)
  else
  let steps := (steps + 1)%Z in
  if (steps >? 1000000)%Z then inr (inr (T, r_error))
  else inl (T, r_error, steps).

(* src/r1/region1_pair_ext.rs:58-76 *)
Definition pv2T_reg1_up (p v T r_error : num) : num + (num * num) :=
  match loop_pos 1000001 (pv2T_reg1_up_round p v) (T, r_error, 0%Z) with
  | inr r => r
  | inl (T, r_error, _) => inr (T, r_error)
  end.

(* src/r1/region1_pair_ext.rs:83-99, one round of the downward adjustment loop *)
Definition pv2T_reg1_down_round (p v : num) (st : num * num * Z) : (num * num * Z) + (num + num * num) :=
  let '(T, r_error, steps) := st in
  let T := T - #0.001 in
  if T <? T_MIN1 then inr (inl T_MIN1)
  else
  let r_error := (v - pT2v_reg1 p T) / v in
  if nabs r_error <? #1.0e-8 then inr (inl T)
  else
  let steps := (steps + 1)%Z in
  if (steps >? 1000000)%Z then inr (inr (T, r_error))
  else inl (T, r_error, steps).

(* src/r1/region1_pair_ext.rs:82-99 *)
Definition pv2T_reg1_down (p v T r_error : num) : num + (num * num) :=
  match loop_pos 1000001 (pv2T_reg1_down_round p v) (T, r_error, 0%Z) with
  | inr r => r
  | inl (T, r_error, _) => inr (T, r_error)
  end.

(* src/r1/region1_pair_ext.rs:43-100: from the clamped solution to the end *)
Definition pv2T_reg1_adjust (p v T : num) : num :=
  let T := if T <? T_MIN1 then T_MIN1 else T in
  let T := if T >? T_MAX1 then T_MAX1 else T in
  let f := v - pT2v_reg1 p T in
  let r_error := f / v in
  match (if r_error >? #0.0 then pv2T_reg1_up p v T r_error else inr (T, r_error)) with
  | inl r => r
  | inr (T, r_error) =>
      match (if r_error <? #0.0 then pv2T_reg1_down p v T r_error else inr (T, r_error)) with
      | inl r => r
      | inr _ => ofZ INVALID_VALUE
      end
  end.

(* src/r1/region1_pair_ext.rs:12-100 *)
Definition pv2T_reg1 (p v : num) : num :=
  let T1 := T_MIN1 in
  let v1 := pT2v_reg1 p T1 in
  let f1 := v - pT2v_reg1 p T1 in
  let T2 := if (p >=? #16.5291643) && (p <=? #100.0) then T_MAX1 else T_saturation p in
  let v2 := pT2v_reg1 p T2 in
  let T2 := if (v2 - v1) !=? #0.0 then T1 + (T2 - T1) * (v - v1) / (v2 - v1) else T2 in
  let v2 := pT2v_reg1 p T2 in
  let f := v - v2 in
  let '(T2, f) :=
    if f >? #0.0 then
      let T2 := T_MAX1 in
      let v2 := pT2v_reg1 p T2 in
      (T2, v - v2)
    else (T2, f) in
  let T := rtsec2 pT2v_reg1 p v T1 T2 f1 f (#1.0e-3) 100 in
  let r_error := (v - pT2v_reg1 p T) / v in
  if (T >=? T_MIN1) && (T <=? T_MAX1) && (nabs r_error <? #1.0e-8) then T
  else pv2T_reg1_adjust p v T.
''')]

HAND['r2/region2_pair_ext.rs'] = [('pv2T_reg2', r'''(* src/r2/region2_pair_ext.rs:79-96, one round of the "zoom" loop.  The loop leaves as soon as
   steps < MAX_STEPS, i.e. after its first round (PropsTerm.v). *)
Definition pv2T_reg2_zoom_round (p v Tmin2 : num) (st : num * num * Z) : (num * num * Z) + num :=
  let '(T, v0, steps) := st in
  let '(T, v0, steps) :=
    if v0 >? v then
      let steps := (steps + 1)%Z in
      let T := T - #0.001 in
      let v0 := if T <? Tmin2 then pT2v_reg2 p T else v0 in
      (T, v0, steps)
    else
      let steps := (steps + 1)%Z in
      let T := T + #0.001 in
      let v0 := if T >? T_MAX2 then pT2v_reg2 p T else v0 in
      (T, v0, steps) in
  if (steps <? 1000)%Z then inr T
  else inl (T, v0, steps).

(* src/r2/region2_pair_ext.rs:78-97 *)
Definition pv2T_reg2_zoom (p v Tmin2 T v0 : num) : num :=
  match loop_pos 1000 (pv2T_reg2_zoom_round p v Tmin2) (T, v0, 0%Z) with
  | inr T => T
  | inl (T, _, _) => T
  end.

(* src/r2/region2_pair_ext.rs:45-98 *)
Definition pv2T_reg2 (p v : num) : num :=
  let Tmin2 := p2Tmin_reg2 p in
  let T1 := Tmin2 in
  let v1 := pT2v_reg2 p T1 in
  let f1 := v - v1 in
  let T2 := #1.1 * T1 in
  let v2 := pT2v_reg2 p T2 in
  let f := v - v2 in
  let T1 := T1 + (T2 - T1) * (v - v1) / nabs (v2 - v1) in
  let v1 := pT2v_reg2 p T1 in
  let f1 := v - v1 in
  if nabs f1 <? ESP then T1
  else
  let T := rtsec2 pT2v_reg2 p v T1 T2 f1 f ESP I_MAX in
  let T := if T <? Tmin2 then Tmin2 else T in
  let T := if T >? T_MAX2 then T_MAX2 else T in
  let v0 := pT2v_reg2 p T in
  if nabs (v0 - v) >? ESP then pv2T_reg2_zoom p v Tmin2 T v0
  else T.
'''), ('Tv2p_reg2', r'''(* src/r2/region2_pair_ext.rs:127-148 and 197-218 (identical up to the property
   v/h): the search for a bracket.  [Some (inl p)] is an early return of p,
   [Some (inr (p1, p2, y1, y2))] the state after the loop, [None] means the loop is
   still running after [fuel] rounds. *)
Definition bracket_reg2 (fn : num -> num -> num) (fuel : positive) (T y pmax2 p1 p2 y1 y2 : num)
  (bounded : bool) : option (num + (num * num * num * num)) :=
  match loop_pos fuel
    (fun '(p1, p2, y1, y2, bounded) =>
       if negb bounded then
         let p1 := p2 in
         let y1 := y2 in
         let p2 := if p1 >? #1.0 then p1 + #1.0 else p2 in
         let p2 := if p1 <? #1.0 then p1 * #5.0 else p2 in
         let '(p2, bounded) := if p2 >=? pmax2 then (pmax2, true) else (p2, bounded) in
         let y2 := fn p2 T in
         if nabs (y - y2) <? ESP then inr (inl p2)
         else
         let bounded := if (y >? y2) && (y <? y1) then true else bounded in
         inl (p1, p2, y1, y2, bounded)
       else inr (inr (p1, p2, y1, y2))) (p1, p2, y1, y2, bounded) with
  | inr r => Some r
  | inl _ => None
  end.

(* src/r2/region2_pair_ext.rs:150-168 *)
Definition Tv2p_reg2_finish (T v pmax2 p1 p2 v1 v2 : num) : num :=
  let f2 := v - v2 in
  let pmid := p2 - (p2 - p1) * (v - v2) / (v1 - v2) in
  let p1 := if v <? pT2v_reg2 pmid T then pmid else p1 in
  let p1 := if p1 <? P_MIN2 then P_MIN2 else p1 in
  let f1 := v - pT2v_reg2 p1 T in
  if nabs f1 <? ESP then p1
  else
  let p := rtsec1 pT2v_reg2 T v p1 p2 f1 f2 ESP I_MAX in
  if p <? P_MIN2 then P_MIN2
  else if p >? pmax2 then pmax2 else p.

(* src/r2/region2_pair_ext.rs:104-169 *)
Definition Tv2p_reg2 (fuel : positive) (T v : num) : option num :=
  let p1 := P_MIN2 in
  let v1 := pT2v_reg2 p1 T in
  if nabs (v - v1) <? ESP then Some p1
  else
  let p2 := p1 * #5.0 in
  let v2 := pT2v_reg2 p2 T in
  if nabs (v - v2) <? ESP then Some p2
  else
  let bounded := (v >? v2) && (v <? v1) in
  let pmax2 := T2pmax_reg2 T in
  match bracket_reg2 pT2v_reg2 fuel T v pmax2 p1 p2 v1 v2 bounded with
  | None => None
  | Some (inl p) => Some p
  | Some (inr (p1, p2, v1, v2)) => Some (Tv2p_reg2_finish T v pmax2 p1 p2 v1 v2)
  end.
'''), ('Th2p_reg2', r'''(* src/r2/region2_pair_ext.rs:220-242 *)
Definition Th2p_reg2_finish (T h pmax2 p1 p2 h1 h2 : num) : num :=
  let f2 := h - h2 in
  let pmid := p2 - (p2 - p1) * (h - h2) / (h1 - h2) in
  let pmid := if pmid <? P_MIN2 then P_MIN2 else pmid in
  let p1 := if h <=? pT2h_reg2 pmid T then pmid else p1 in
  let h1 := pT2h_reg2 p1 T in
  let f1 := h - h1 in
  if nabs f1 <? ESP then p1
  else
  let p := rtsec1 pT2h_reg2 T h p1 p2 f1 f2 ESP I_MAX in
  let p := if p <? P_MIN2 then P_MIN2 else p in
  if p >? pmax2 then pmax2 else p.

(* src/r2/region2_pair_ext.rs:175-242 *)
Definition Th2p_reg2 (fuel : positive) (T h : num) : option num :=
  let pmax2 := T2pmax_reg2 T in
  let p1 := P_MIN2 in
  let h1 := pT2h_reg2 p1 T in
  if nabs (h - h1) <? ESP then Some p1
  else
  let p2 := p1 * #5.0 in
  let h2 := pT2h_reg2 p2 T in
  if nabs (h - h2) <? ESP then Some p2
  else
  let bounded := (h >? h2) && (h <? h1) in
  match bracket_reg2 pT2h_reg2 fuel T h pmax2 p1 p2 h1 h2 bounded with
  | None => None
  | Some (inl p) => Some p
  | Some (inr (p1, p2, h1, h2)) => Some (Th2p_reg2_finish T h pmax2 p1 p2 h1 h2)
  end.
''')]

HAND['r2/region2.rs'] = [('tv_reg2', r'''(* src/r2/region2.rs:81-88; [fuel] bounds the bracket search of Tv2p_reg2 *)
Definition tv_reg2 (fuel : positive) (t v : num) (o_id : Z) : option num :=
  let T := t + K in
  match Tv2p_reg2 fuel T v with
  | None => None
  | Some p => Some (if Z.eqb o_id OP then p else pT_reg2 p T o_id)
  end.
'''), ('th_reg2', r'''(* src/r2/region2.rs:91-97; [fuel] bounds the bracket search of Th2p_reg2 *)
Definition th_reg2 (fuel : positive) (t h : num) (o_id : Z) : option num :=
  match Th2p_reg2 fuel (t + #273.15) h with
  | None => None
  | Some p => Some (if Z.eqb o_id OP then p else pT_reg2 p (t + #273.15) o_id)
  end.
''')]

HAND['r5/region5_pair_ext.rs'] = [('Tv2p_reg5', r'''(* src/r5/region5_pair_ext.rs:54-70, the search for a bracket *)
Definition bracket_reg5 (fuel : positive) (T v p1 p2 v1 v2 : num) (vbounded : bool)
  : option (num + (num * num * num * num)) :=
  match loop_pos fuel
    (fun '(p1, p2, v1, v2, vbounded) =>
       if negb vbounded then
         let p1 := p2 in
         let v1 := v2 in
         let p2 := #5.0 * p1 in
         let '(p2, vbounded) := if p2 >=? P_MAX5 then (P_MAX5, true) else (p2, vbounded) in
         let v2 := pT2v_reg5 p2 T in
         if v =? v2 then inr (inl p2)
         else
         let vbounded := if (v >? v2) && (v <? v1) then true else vbounded in
         inl (p1, p2, v1, v2, vbounded)
       else inr (inr (p1, p2, v1, v2))) (p1, p2, v1, v2, vbounded) with
  | inr r => Some r
  | inl _ => None
  end.

(* src/r5/region5_pair_ext.rs:72-88 *)
Definition Tv2p_reg5_finish (T v p1 p2 v1 v2 : num) : num :=
  let f2 := v - v2 in
  let p1 := p2 - (p2 - p1) * (v - v2) / (v1 - v2) in
  let p1 := if p1 <? P_MIN5 then P_MIN5 else p1 in
  let f1 := v - pT2v_reg5 p1 T in
  if nabs f1 <? ESP then p1
  else
  let p := rtsec1 pT2v_reg5 T v p1 p2 f1 f2 ESP I_MAX in
  let p := if p >? P_MAX5 then P_MAX5 else p in
  if p <? P_MIN5 then P_MIN5 else p.

(* src/r5/region5_pair_ext.rs:32-88 *)
Definition Tv2p_reg5 (fuel : positive) (T v : num) : option num :=
  let p1 := P_MIN5 in
  let v1 := pT2v_reg5 p1 T in
  if v =? v1 then Some p1
  else
  let p2 := #10.0 * p1 in
  let p2 := if p2 >? P_MAX5 then P_MAX5 else p2 in
  let v2 := pT2v_reg5 p2 T in
  if v =? v2 then Some p2
  else
  let vbounded := (v >? v2) && (v <? v1) in
  match bracket_reg5 fuel T v p1 p2 v1 v2 vbounded with
  | None => None
  | Some (inl p) => Some p
  | Some (inr (p1, p2, v1, v2)) => Some (Tv2p_reg5_finish T v p1 p2 v1 v2)
  end.
''')]

HAND['r5/region5.rs'] = [('tv_reg5', r'''(* src/r5/region5.rs:70-79; [fuel] bounds the bracket search of Tv2p_reg5 *)
Definition tv_reg5 (fuel : positive) (t v : num) (o_id : Z) : option num :=
  if Z.eqb o_id OD then Some (#1.0 / v)
  else
  match Tv2p_reg5 fuel (t + #273.15) v with
  | None => None
  | Some p => Some (if Z.eqb o_id OP then p else pT_reg5 p (t + #273.15) o_id)
  end.
''')]

HAND['r4/region4_T_hs.rs'] = [('hs2T_reg4', r'''(* src/r4/region4_T_hs.rs:88-99, the first loop: (hL, low, high) -> (low, high);
   [None]: still running after [fuel] rounds *)
Definition hs2T_reg4_liquid (fuel : positive) (h : num) : option (num * num) :=
  match loop_pos fuel
    (fun '(hL, p_Low_Bound, p_High_Bound) =>
       if (nabs (hL - h) >? #1.0e-04) && (nabs (p_High_Bound - p_Low_Bound) >? #1.0e-4) then
         let PL := #0.5 * (p_Low_Bound + p_High_Bound) in
         let Tsat := T_saturation PL in
         let hL := pT2h_reg1 PL Tsat in
         if hL >? h then inl (hL, p_Low_Bound, PL)
         else inl (hL, PL, p_High_Bound)
       else inr (p_Low_Bound, p_High_Bound)) (#(-1000.0), P_MIN, Ps_623) with
  | inr r => Some r
  | inl _ => None
  end.

(* src/r4/region4_T_hs.rs:121-136: the mixture entropy at pressure p *)
Definition hs2T_reg4_sss (h p : num) : num :=
  let Tsat := T_saturation p in
  let xs := ph_reg4 p h OX in
  let '(s4v, s4L) :=
    if p <? Ps_623 then (pT2s_reg2 p Tsat, pT2s_reg1 p Tsat)
    else
      let v4v := ph_reg3 p (p2sat_steam p OH) OV in
      let s4v := Td2s_reg3 Tsat (#1.0 / v4v) in
      let v4L := ph_reg3 p (p2sat_water p OH) OV in
      let s4L := Td2s_reg3 Tsat (#1.0 / v4L) in
      (s4v, s4L) in
  xs * s4v + (#1.0 - xs) * s4L.

(* src/r4/region4_T_hs.rs:120-145, the second loop: the last pressure tried *)
Definition hs2T_reg4_iter (fuel : positive) (h s p_Low_Bound p_High_Bound : num) : option num :=
  match loop_pos fuel
    (fun '(p, sss, p_Low_Bound, p_High_Bound) =>
       if nabs (s - sss) >? #1.0e-6 then
         let p := #0.5 * (p_Low_Bound + p_High_Bound) in
         let sss := hs2T_reg4_sss h p in
         if sss <? s then
           inl (p, sss, (#1.0 + (sss - s) / s) * p, p)
         else
           inl (p, sss, p, (#1.0 + (sss - s) / s) * p)
       else inr p) (#0.0, #(-1000.0), p_Low_Bound, p_High_Bound) with
  | inr p => Some p
  | inl _ => None
  end.

(* src/r4/region4_T_hs.rs:73-148 *)
Definition hs2T_reg4 (fuel : positive) (h s : num) : option num :=
  if (s >? region4_T_hs_s4V_623) && (s <? region4_T_hs_s4V_273) then Some (hs2T_reg43 h s)
  else
  match (if (s >? region4_T_hs_s4L_273) && (s <=? region4_T_hs_s4L_623) then hs2T_reg4_liquid fuel h
         else Some (#0.0, #0.0)) with
  | None => None
  | Some (p_Low_Bound, p_High_Bound) =>
      let '(p_Low_Bound, p_High_Bound) :=
        if (s >? region4_T_hs_s4L_623) && (s <=? SC_WATER) then (P_MIN, h2p_sat_reg3 h)
        else (p_Low_Bound, p_High_Bound) in
      let '(p_Low_Bound, p_High_Bound) :=
        if (s >? SC_WATER) && (s <=? region4_T_hs_s4V_623) then (P_MIN, h2p_sat_reg3 h)
        else (p_Low_Bound, p_High_Bound) in
      match hs2T_reg4_iter fuel h s p_Low_Bound p_High_Bound with
      | None => None
      | Some p => Some (T_saturation p)
      end
  end.
''')]

HAND['r4/region4.rs'] = [('hs_reg4', r'''(* src/r4/region4.rs:49-73; [fuel] bounds the loops of hs2T_reg4 *)
Definition hs_reg4 (fuel : positive) (h s : num) (o_id : Z) : option num :=
  match hs2T_reg4 fuel h s with
  | None => None
  | Some T => Some (
      if Z.eqb o_id OT then T - K
      else
      let p := p_saturation T in
      if Z.eqb o_id OP then p
      else
      let h1 := p2sat_water p OH in
      let h2 := p2sat_steam p OH in
      let x := (h - h1) / (h2 - h1) in
      if Z.eqb o_id OX then x
      else
      if Z.eqb o_id OT then px_reg4 p x o_id - #273.15
      else px_reg4 p x o_id)
  end.
'''), ('bisection_reg4', r'''(* src/r4/region4.rs:124-154.  The for loop runs maxiter rounds unless it breaks;
   fr and numIters never influence the result.  State: (Tl, Tr, T, fl).  As in
   Rust, maxiter <= 0 runs no round. *)
Definition bisection_reg4 (x y : num) (y_id : Z) (Tl Tr tol : num) (maxiter : Z) : num :=
  let fl := Ty2x_residuals Tl x y y_id in
  if (maxiter <=? 0)%Z then #0.0
  else
  match loop_pos (Z.to_pos maxiter)
    (fun '(Tl, Tr, T, fl) =>
       let T := #0.5 * (Tl + Tr) in
       let f := Ty2x_residuals T x y y_id in
       if nabs f <? tol then inr T
       else
       if f * fl <? #0.0 then inl (Tl, T, T, fl)
       else inl (T, Tr, T, f)) (Tl, Tr, #0.0, fl) with
  | inr T => T
  | inl (_, _, T, _) => T
  end.
''')]

HAND['common/region.rs'] = [('th_sub_region', r'''(* src/common/region.rs:606-619, the search for the smallest enthalpy on the
   isotherm; [None]: still running after [fuel] rounds *)
Definition th_Hmin (fuel : positive) (T Hmin p11 : num) : option num :=
  match loop_pos fuel
    (fun '(p11, Hmin, HminFounded) =>
       if negb HminFounded then
         let p11 := p11 + #0.1 in
         let Hmid := pT2h_reg1 p11 T in
         if Hmid <? Hmin then inl (p11, Hmid, HminFounded)
         else inl (p11, Hmin, true)
       else inr Hmin) (p11, Hmin, false) with
  | inr r => Some r
  | inl _ => None
  end.

(* src/common/region.rs:559-655 *)
Definition th_sub_region (fuel : positive) (t h : num) : option Z :=
  let T := t + #273.15 in
  if (T <? #273.15) || (T >? #2273.15) then Some INVALID_VALUE
  else
  let hpmax2 := if (T >=? T_MIN2) && (T <=? T_MAX2) then pT2h_reg2 P_MIN2 T else #0.0 in
  let '(hpm50, hpmax5) :=
    if (T >? T_MIN5) && (T <=? T_MAX5) then (pT2h_reg5 P_MAX5 T, pT2h_reg5 P_MIN5 T)
    else (#0.0, #0.0) in
  let hp100 :=
    if (T >=? T_MIN1) && (T <=? T_MAX1) then pT2h_reg1 (#100.0) T
    else if (T >? T_MIN3) && (T <=? T_MAX3) then pt_reg3 (#100.0) (T - #273.15) OH
    else #0.0 in
  let '(hsw, hss, p1, hB23) :=
    if (T >=? T_MIN1) && (T <=? T_MAX1) then
      (T2sat_water T OH, T2sat_steam T OH, #0.0, #0.0)
    else if (T >? T_MIN3) && (T <=? T_MAX3) then
      let p1 := B23_T2p T in
      let hB23 := pT2h_reg2 p1 T in
      if T <=? TC_WATER then
        let p1 := p_saturation T in
        let v := pT2v_sat_reg3 p1 T (#0.0) in
        let hsw := Td2h_reg3 T (#1.0 / v) in
        let v := pT2v_sat_reg3 p1 T (#1.0) in
        let hss := Td2h_reg3 T (#1.0 / v) in
        (hsw, hss, p1, hB23)
      else (#0.0, #0.0, p1, hB23)
    else (#0.0, #0.0, #0.0, #0.0) in
  if (T >=? T_MIN1) && (T <? (#250.0 + T_MIN1)) && (h >? hsw) && (h <=? hp100) then Some 1%Z
  else
  if (T >=? (#250.0 + #273.15)) && (T <=? T_MAX1) && (h <? hsw) && (h <=? hp100) then
    let Hmin := hsw in
    let p11 := p1 + #0.1 in
    let Hmid := pT2h_reg1 p11 T in
    if Hmid <? Hmin then
      match th_Hmin fuel T Hmin p11 with
      | None => None
      | Some Hmin => if h >=? Hmin then Some 1%Z else Some INVALID_VALUE
      end
    else Some INVALID_VALUE
  else
  if (T >=? T_MIN2) && (T <=? T_MAX1) && (h >? hss) && (h <? hpmax2) then Some 2%Z
  else
  if (T >? T_MAX1) && (T <=? T_MAX3) && (h >=? hB23) && (h <? hpmax2) then Some 2%Z
  else
  if ((T >? T_MIN3) && (T <=? TC_WATER) &&
        (((h >? hss) && (h <? hB23)) || ((h >=? hp100) && (h <? hsw))))
     || ((T >? TC_WATER) && (T <=? T_MAX3) && (h >=? hp100) && (h <? hB23)) then Some 3%Z
  else
  if (T >=? T_MIN1) && (T <=? TC_WATER) && (h >=? hsw) && (h <=? hss) then Some 4%Z
  else
  if (T >? T_MIN5) && (T <=? T_MAX5) && (h >=? hpm50) && (h <=? hpmax5) then Some 5%Z
  else Some INVALID_VALUE.
''')]

SKIP = {'rtsec1', 'rtsec2'} | {n for l in HAND.values() for n, _ in l}

PRE = {
 'Transport': r'''(* src/common/propertry_pairs.rs:33-36 *)
Inductive PAIRS := PAIRS_pT | PAIRS_Td.

(* the pattern test [PAIRS::x] of src/common/propertry_pairs.rs:42-100 *)
Definition PAIRS_eqb (a b : PAIRS) : bool :=
  match a, b with
  | PAIRS_pT, PAIRS_pT | PAIRS_Td, PAIRS_Td => true
  | _, _ => false
  end.
''',
 'Reg3Sub': None,
}

FILES = [
 ('Constant', ['common/constant.rs', 'common/propertry_id.rs'], []),
 ('R4Sat', ['r4/region4_sat_pT.rs'], []),
 ('Transport', ['common/transport_further.rs', ('common/propertry_pairs.rs', {'pair_transport_reg'})], []),
 ('Reg1', ['r1/region1_gfe.rs', 'r1/region1_pT.rs', 'r1/region1_pT_ext.rs'], []),
 ('Reg2', ['r2/region2_gfe.rs', 'r2/region2_pT.rs', 'r2/region2_pT_ext.rs'], []),
 ('Reg5', ['r5/region5_gfe.rs', 'r5/region5_pT.rs', 'r5/region5_pT_ext.rs'], []),
 ('Reg3Td', ['r3/region3_hfe.rs', 'r3/region3_Td.rs', 'r3/region3_Td_ext.rs'], []),
 ('Boundaries', ['common/boundaries.rs'], []),
 ('Reg1Back', ['r1/region1_T_phps.rs', 'r1/region1_p_hs.rs', 'r1/region1_pair_ext.rs', 'r1/region1.rs'], []),
 ('Reg2Back', ['r2/region2_T_ph.rs', 'r2/region2_T_ps.rs', 'r2/region2_p_hs.rs', 'r2/region2_pair_ext.rs', 'r2/region2.rs'], []),
 ('Reg5Back', ['r5/region5_ph_ps_hs.rs', 'r5/region5_pair_ext.rs', 'r5/region5.rs'], []),
 ('Reg3Sub', ['r3/region3_v_subregion_pT.rs'], []),
 ('Reg3V', ['r3/region3_v_pT.rs'], []),
 ('Reg3', ['r3/region3_Tv_phps.rs', 'r3/region3_p_hs.rs', 'r3/region3_pair_ext.rs', 'r3/region3.rs'], []),
 ('Reg4', ['r4/region4_pTx.rs', 'r4/region4_pair_ext.rs', 'r4/region4.rs', 'r4/region4_T_hs.rs'], []),
 ('Region', ['common/region.rs', ('common/propertry_pairs.rs', {'pair_properties'})], []),
]

def toposort(chunks):
    names = {n: i for i, (n, _) in enumerate(chunks)}
    done, out = set(), []
    def visit(i, stack):
        n, t = chunks[i]
        if n in done: return
        if n in stack: raise Exception('cycle %s' % n)
        body = t.split(':=', 1)[1] if ':=' in t else t
        for w in sorted(set(re.findall(r"[A-Za-z_][\w']*", re.sub(r'\(\*.*?\*\)', '', body, flags=re.S))), key=lambda w: names.get(w, 0)):
            if w in names and w != n: visit(names[w], stack | {n})
        done.add(n); out.append((n, t))
    for i in range(len(chunks)): visit(i, frozenset())
    return out

def run(gen_chunks, HEADER):
    allch = {}
    for name, srcs, _ in FILES:
        ch = []
        for s in srcs:
            rel, only = s if isinstance(s, tuple) else (s, None)
            c = gen_chunks(rel, skip=SKIP, only=only)
            c += HAND.get(rel, [])
            ch += c
        allch[name] = toposort(ch)
    defs = {}   # identifier -> coq file
    defs.update({k: 'Algo' for k in re.findall(r'Definition (\w+)', open(os.path.join(OUT, 'Algo.v')).read())})
    for name, _, _ in FILES:
        for n, t in allch[name]:
            for d in re.findall(r'^Definition (\w+)', t, flags=re.M):
                if d in defs: raise Exception('duplicate %s in %s and %s' % (d, name, defs[d]))
                defs[d] = name
    if PRE['Transport']: defs['PAIRS_pT'] = defs['PAIRS_Td'] = 'Transport'
    order = ['Num', 'Algo'] + [f[0] for f in FILES]
    for name, srcs, _ in FILES:
        text = ''
        deps = set()
        for n, t in allch[name]:
            text += t + '\n'
            for w in re.findall(r"[A-Za-z_][\w']*", re.sub(r'\(\*.*?\*\)', '', t, flags=re.S)):
                if w in defs and defs[w] != name and order.index(defs[w]) < order.index(name): deps.add(defs[w])
        if re.search(r'\bsubregion\b|mk_para|\bsub_', text) : deps.add('Subregion') if name in () else None
        req = 'From Verif Require Import Num ' + ' '.join(o for o in order if o in deps) + '.'
        if re.search(r'\bsub_[a-z]\b|\bsubregion\b', text) and name != 'Reg3Sub': req = req.replace('Num', 'Num Types', 1)
        elif name == 'Reg3Sub': req = req.replace('Num', 'Num Types', 1)
        src = ', '.join('src/' + (s[0] if isinstance(s, tuple) else s) for s in srcs)
        pre = PRE.get(name) or ''
        hdr = HEADER % (src, req)
        if pre: hdr = hdr.replace('Section Model.', pre + '\nSection Model.', 1)
        body = hdr + text + 'End Model.\n'
        path = os.path.join(OUT, name + '.v')
        if not (os.path.exists(path) and open(path).read() == body):
            open(path, 'w').write(body)
