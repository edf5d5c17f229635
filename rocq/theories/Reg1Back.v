(* Generated by tools/rs2v.py from src/r1/region1_T_phps.rs, src/r1/region1_p_hs.rs, src/r1/region1_pair_ext.rs, src/r1/region1.rs.
   Every definition cites the source lines it models; see tools/rs2v.py for the
   translation rules (mutable variables become let-rebinding, match on constants
   becomes an if-chain in source order, for loops over ranges become fold_left). *)
From Coq Require Import ZArith List Bool String.
From Verif Require Import Num Algo Constant R4Sat Transport Reg1.
Import ListNotations.
Open Scope num_scope.

Section Model.
Context {N : Arith}.

(* src/r1/region1_T_phps.rs:13-34  IJn *)
Definition ph2T_reg1_IJn : list (Z * Z * num) :=
  [(0%Z, 0%Z, #(-238.72489924521));
     (0%Z, 1%Z, #404.21188637945);
     (0%Z, 2%Z, #113.49746881718);
     (0%Z, 6%Z, #(-5.8457616048039));
     (0%Z, 22%Z, #(-1.528548241314E-04));
     (0%Z, 32%Z, #(-1.0866707695377E-06));
     (1%Z, 0%Z, #(-13.391744872602));
     (1%Z, 1%Z, #43.211039183559);
     (1%Z, 2%Z, #(-54.010067170506));
     (1%Z, 3%Z, #30.535892203916);
     (1%Z, 4%Z, #(-6.5964749423638));
     (1%Z, 10%Z, #9.3965400878363E-03);
     (1%Z, 32%Z, #1.157364750534E-07);
     (2%Z, 10%Z, #(-2.5858641282073E-05));
     (2%Z, 32%Z, #(-4.0644363084799E-09));
     (3%Z, 10%Z, #6.6456186191635E-08);
     (3%Z, 32%Z, #8.0670734103027E-11);
     (4%Z, 32%Z, #(-9.3477771213947E-13));
     (5%Z, 32%Z, #5.8265442020601E-15);
     (6%Z, 32%Z, #(-1.5020185953503E-17))].

(* src/r1/region1_T_phps.rs:11-40 *)
Definition ph2T_reg1 (p : num) (h : num) : num :=
  let pi := p / #1.0 in
  let eta := (h / #2500.0) + #1.0 in
  let theta := poly_powi pi eta ph2T_reg1_IJn in
  #1.0 * theta.

(* src/r1/region1_T_phps.rs:45-66  IJn *)
Definition ps2T_reg1_IJn : list (Z * Z * num) :=
  [(0%Z, 0%Z, #0.17478268058307e3);
     (0%Z, 1%Z, #0.34806930892873e2);
     (0%Z, 2%Z, #0.65292584978455e1);
     (0%Z, 3%Z, #0.33039981775489);
     (0%Z, 11%Z, #(-0.19281382923196e-6));
     (0%Z, 31%Z, #(-0.24909197244573e-22));
     (1%Z, 0%Z, #(-0.26107636489332));
     (1%Z, 1%Z, #0.22592965981586);
     (1%Z, 2%Z, #(-0.64256463395226e-1));
     (1%Z, 3%Z, #0.78876289270526e-2);
     (1%Z, 12%Z, #0.35672110607366e-9);
     (1%Z, 31%Z, #0.17332496994895e-23);
     (2%Z, 0%Z, #0.56608900654837e-3);
     (2%Z, 1%Z, #(-0.32635483139717e-3));
     (2%Z, 2%Z, #0.44778286690632e-4);
     (2%Z, 9%Z, #(-0.51322156908507e-9));
     (2%Z, 31%Z, #(-0.42522657042207e-25));
     (3%Z, 10%Z, #0.26400441360689e-12);
     (3%Z, 32%Z, #0.78124600459723e-28);
     (4%Z, 32%Z, #(-0.30732199903668e-30))].

(* src/r1/region1_T_phps.rs:43-72 *)
Definition ps2T_reg1 (p : num) (s : num) : num :=
  let pi := p / #1.0 in
  let sigma := (s / #1.0) + #2.0 in
  let theta := poly_powi pi sigma ps2T_reg1_IJn in
  #1.0 * theta.

(* src/r1/region1_p_hs.rs:10-13 *)
Definition ph2s_reg1 (p : num) (h : num) : num :=
  let T := ph2T_reg1 p h in
  pT2s_reg1 p T.

(* src/r1/region1_p_hs.rs:21-41  IJn *)
Definition hs2p_reg1_IJn : list (Z * Z * num) :=
  [(0%Z, 0%Z, #(-0.691997014660582));
     (0%Z, 1%Z, #(-0.183612548787560e2));
     (0%Z, 2%Z, #(-0.928332409297335e1));
     (0%Z, 4%Z, #0.659639569909906e2);
     (0%Z, 5%Z, #(-0.162060388912024e2));
     (0%Z, 6%Z, #0.450620017338667e3);
     (0%Z, 8%Z, #0.854680678224170e3);
     (0%Z, 14%Z, #0.607523214001162e4);
     (1%Z, 0%Z, #0.326487682621856e2);
     (1%Z, 1%Z, #(-0.269408844582931e2));
     (1%Z, 4%Z, #(-0.319947848334300e3));
     (1%Z, 6%Z, #(-0.928354307043320e3));
     (2%Z, 0%Z, #0.303634537455249e2);
     (2%Z, 1%Z, #(-0.650540422444146e2));
     (2%Z, 10%Z, #(-0.430991316516130e4));
     (3%Z, 4%Z, #(-0.747512324096068e3));
     (4%Z, 1%Z, #0.730000345529245e3);
     (4%Z, 4%Z, #0.114284032569021e4);
     (5%Z, 0%Z, #(-0.436407041874559e3))].

(* src/r1/region1_p_hs.rs:18-47 *)
Definition hs2p_reg1 (h : num) (s : num) : num :=
  let eta := (h / #3400.0) + #0.05 in
  let sigma := (s / #7.6) + #0.05 in
  let pi := poly_powi eta sigma hs2p_reg1_IJn in
  #100.0 * pi.

(* src/r1/region1_pair_ext.rs:106-113 *)
Definition Tv2p_reg1 (T : num) (v : num) : num :=
  let p1 := #0.3 * ((p_saturation T) + P_MAX1) in
  let p2 := #1.05 * p1 in
  let f1 := v - (pT2v_reg1 p1 T) in
  let f := v - (pT2v_reg1 p2 T) in
  rtsec1 pT2v_reg1 T v p1 p2 f1 f ESP I_MAX.

(* src/r1/region1_pair_ext.rs:119-143 *)
Definition Th2p_reg1 (T : num) (h : num) : num :=
  let pmin1 := p_saturation T in
  let p1 := pmin1 in
  let p2 := P_MAX1 in
  let h1 := pT2h_reg1 p1 T in
  if (nabs (h - h1)) <? ESP then
    p1
  else 
  let h2 := pT2h_reg1 p2 T in
  if (nabs (h - h2)) <? ESP then
    p2
  else 
  let f1 := h - (pT2h_reg1 p1 T) in
  let f := h - (pT2h_reg1 p2 T) in
  let p := rtsec1 pT2h_reg1 T h p1 p2 f1 f ESP I_MAX in
  let p :=
    if p >? P_MAX1 then
      P_MAX1
    else p in
  if p <? pmin1 then
    pmin1
  else p.

(* src/r1/region1_pair_ext.rs:149-173 *)
Definition Ts2p_reg1 (T : num) (s : num) : num :=
  let pmin1 := p_saturation T in
  let p1 := pmin1 in
  let s1 := pT2s_reg1 p1 T in
  let f1 := s - s1 in
  let p2 := P_MAX1 in
  let s2 := pT2s_reg1 p2 T in
  let f2 := s - s2 in
  let p1 := p2 - (((p2 - p1) * (s - s2)) / (s1 - s2)) in
  let p1 :=
    if p1 <? pmin1 then
      pmin1
    else p1 in
  let s1 := pT2s_reg1 p1 T in
  let f1 := s - s1 in
  if (nabs f1) <? ESP then
    p1
  else 
  let p := rtsec1 pT2s_reg1 T s p1 p2 f1 f2 ESP I_MAX in
  if p >? P_MAX1 then
    P_MAX1
  else if p <? pmin1 then
    pmin1
  else p.

(* src/r1/region1_pair_ext.rs:59-76, one round of the upward adjustment loop.  [inl T] is the
   early [return T]; [inr (T, r_error)] is the state after the loop.  The counter
   ends the loop after 1000001 rounds, so the bound is never reached first (PropsTerm.v). *)
Definition pv2T_reg1_up_round (p v : num) (st : num * num * Z) : (num * num * Z) + (num + num * num) :=
  let '(T, r_error, steps) := st in
  let T := T + #0.01 in
  if T >? T_MAX1 then inr (inl T)
  else
  let f := v - pT2v_reg1 p T in
  let r_error := f / v in
  if nabs r_error <? #1.0e-8 then inr (inl T)
  else
  let steps := (steps + 1)%Z in
  if (steps >? 1000000)%Z then inr (inr (T, r_error))
  else inl (T, r_error, steps).

(* src/r1/region1_pair_ext.rs:58-76 *)
Definition pv2T_reg1_up (p v T r_error : num) : num + (num * num) :=
  match loop_pos 1000001 (pv2T_reg1_up_round p v) (T, r_error, 0%Z) with
  | inr r => r
  | inl (T, r_error, _) => inr (T, r_error)
  end.

(* src/r1/region1_pair_ext.rs:83-99, one round of the downward adjustment loop *)
Definition pv2T_reg1_down_round (p v : num) (st : num * num * Z) : (num * num * Z) + (num + num * num) :=
  let '(T, r_error, steps) := st in
  let T := T - #0.001 in
  if T <? T_MIN1 then inr (inl T_MIN1)
  else
  let r_error := (v - pT2v_reg1 p T) / v in
  if nabs r_error <? #1.0e-8 then inr (inl T)
  else
  let steps := (steps + 1)%Z in
  if (steps >? 1000000)%Z then inr (inr (T, r_error))
  else inl (T, r_error, steps).

(* src/r1/region1_pair_ext.rs:82-99 *)
Definition pv2T_reg1_down (p v T r_error : num) : num + (num * num) :=
  match loop_pos 1000001 (pv2T_reg1_down_round p v) (T, r_error, 0%Z) with
  | inr r => r
  | inl (T, r_error, _) => inr (T, r_error)
  end.

(* src/r1/region1_pair_ext.rs:43-100: from the clamped solution to the end *)
Definition pv2T_reg1_adjust (p v T : num) : num :=
  let T := if T <? T_MIN1 then T_MIN1 else T in
  let T := if T >? T_MAX1 then T_MAX1 else T in
  let f := v - pT2v_reg1 p T in
  let r_error := f / v in
  match (if r_error >? #0.0 then pv2T_reg1_up p v T r_error else inr (T, r_error)) with
  | inl r => r
  | inr (T, r_error) =>
      match (if r_error <? #0.0 then pv2T_reg1_down p v T r_error else inr (T, r_error)) with
      | inl r => r
      | inr _ => ofZ INVALID_VALUE
      end
  end.

(* src/r1/region1_pair_ext.rs:12-100 *)
Definition pv2T_reg1 (p v : num) : num :=
  let T1 := T_MIN1 in
  let v1 := pT2v_reg1 p T1 in
  let f1 := v - pT2v_reg1 p T1 in
  let T2 := if (p >=? #16.5291643) && (p <=? #100.0) then T_MAX1 else T_saturation p in
  let v2 := pT2v_reg1 p T2 in
  let T2 := if (v2 - v1) !=? #0.0 then T1 + (T2 - T1) * (v - v1) / (v2 - v1) else T2 in
  let v2 := pT2v_reg1 p T2 in
  let f := v - v2 in
  let '(T2, f) :=
    if f >? #0.0 then
      let T2 := T_MAX1 in
      let v2 := pT2v_reg1 p T2 in
      (T2, v - v2)
    else (T2, f) in
  let T := rtsec2 pT2v_reg1 p v T1 T2 f1 f (#1.0e-3) 100 in
  let r_error := (v - pT2v_reg1 p T) / v in
  if (T >=? T_MIN1) && (T <=? T_MAX1) && (nabs r_error <? #1.0e-8) then T
  else pv2T_reg1_adjust p v T.

(* src/r1/region1.rs:17-29 *)
Definition pT_thermal_reg1 (p : num) (T : num) (o_id : Z) : num :=
  if Z.eqb o_id OV then
    pT2v_reg1 p T
  else if Z.eqb o_id OD then
    #1.0 / (pT2v_reg1 p T)
  else if Z.eqb o_id OH then
    pT2h_reg1 p T
  else if Z.eqb o_id OS then
    pT2s_reg1 p T
  else if Z.eqb o_id OU then
    pT2u_reg1 p T
  else if Z.eqb o_id OCV then
    pT2cv_reg1 p T
  else if Z.eqb o_id OCP then
    pT2cp_reg1 p T
  else if Z.eqb o_id OW then
    pT2w_reg1 p T
  else 
    pT_ext_reg1 p T o_id.

(* src/r1/region1.rs:9-14 *)
Definition pT_reg1 (p : num) (T : num) (o_id : Z) : num :=
  if ((((((Z.eqb o_id OST) || (Z.eqb o_id ODV)) || (Z.eqb o_id OKV)) || (Z.eqb o_id OTC)) || (Z.eqb o_id OSDC)) || (Z.eqb o_id OPR)) || (Z.eqb o_id OTD) then
    pair_transport_reg p T o_id PAIRS_pT pT_thermal_reg1
  else 
    pT_thermal_reg1 p T o_id.

(* src/r1/region1.rs:31-34 *)
Definition pt_reg1 (p : num) (t : num) (o_id : Z) : num :=
  let T := t + K in
  pT_reg1 p T o_id.

(* src/r1/region1.rs:36-42 *)
Definition ph_reg1 (p : num) (h : num) (o_id : Z) : num :=
  let T := ph2T_reg1 p h in
  if Z.eqb o_id OT then
    T - #273.15
  else 
  pT_reg1 p T o_id.

(* src/r1/region1.rs:44-50 *)
Definition ps_reg1 (p : num) (s : num) (o_id : Z) : num :=
  let T := ps2T_reg1 p s in
  if Z.eqb o_id OT then
    T - #273.15
  else 
  pT_reg1 p T o_id.

(* src/r1/region1.rs:52-58 *)
Definition hs_reg1 (h : num) (s : num) (o_id : Z) : num :=
  let p := hs2p_reg1 h s in
  if Z.eqb o_id OP then
    p
  else 
  ph_reg1 p h o_id.

(* src/r1/region1.rs:64-70 *)
Definition pv_reg1 (p : num) (v : num) (o_id : Z) : num :=
  let T := pv2T_reg1 p v in
  if Z.eqb o_id OT then
    T - #273.15
  else 
  pT_reg1 p T o_id.

(* src/r1/region1.rs:73-82 *)
Definition tv_reg1 (t : num) (v : num) (o_id : Z) : num :=
  if Z.eqb o_id OD then
    #1.0 / v
  else 
  let p := Tv2p_reg1 (t + #273.15) v in
  if Z.eqb o_id OP then
    p
  else 
  pT_reg1 p (t + #273.15) o_id.

(* src/r1/region1.rs:85-91 *)
Definition th_reg1 (t : num) (h : num) (o_id : Z) : num :=
  let p := Th2p_reg1 (t + #273.15) h in
  if Z.eqb o_id OP then
    p
  else 
  pT_reg1 p (t + #273.15) o_id.

(* src/r1/region1.rs:94-100 *)
Definition ts_reg1 (t : num) (s : num) (o_id : Z) : num :=
  let p := Ts2p_reg1 (t + #273.15) s in
  if Z.eqb o_id OP then
    p
  else 
  pT_reg1 p (t + #273.15) o_id.

End Model.
