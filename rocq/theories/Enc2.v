(* Enclosures for region 2: boxes in x = p and y = 540/T - 1/2 or in q = p^(1/4) and y. *)
From Coq Require Import ZArith Reals List Bool Floats Lra.
From Verif Require Import Num RealInst FloatInst FloatErr FloatUp Steps RSums Taylor TaylorSum TaylorSub Reg2 Reg2Back Enc1 SatNode.
Import ListNotations.
Open Scope R_scope.

Definition tab2 : list (Z * Z * dec) := Eval cbv in @region2_gfe_IJn DArith.
Definition tid2 : list (Z * Z * dec) := Eval cbv in combine (map (fun j => (0%Z, j)) region2_gfe_J0) (@region2_gfe_n0 DArith).
(* x d/dx and x^2 d2/dx2 of a table *)
Definition xdD (t : list drow) : list drow := map (fun e => let '(i, j, d) := e in (i, j, zdec i d)) t.
Definition xxdD (t : list drow) : list drow := flat_map (fun e => let '(i, j, d) := e in if Z.eqb i 1 then [] else [(i, j, zdec (i*(i-1)) d)]) t.

(* the exponents that occur, each from two smaller ones *)
Definition cx2 : list (Z * Z) := [(1, 1); (2, 1); (3, 1); (4, 1); (5, 1); (6, 1); (7, 1); (8, 1); (9, 1); (10, 6); (16, 2); (18, 2); (20, 1); (21, 1); (22, 1); (23, 1)]%Z.
Definition cy2 : list (Z * Z) := [(1, 1); (2, 1); (3, 1); (4, 1); (5, 1); (6, 1); (7, 1); (8, 1); (9, 1); (10, 1); (11, 1); (12, 1); (13, 1); (14, 1); (15, 1); (16, 2); (18, 1); (19, 1); (20, 1); (21, 2); (23, 1); (24, 1); (25, 1); (26, 1); (27, 1); (28, 1); (29, 4); (33, 1); (34, 1); (35, 1); (36, 1); (37, 1); (38, 1); (39, 1); (40, 6); (46, 1); (47, 1); (48, 1); (49, 1); (50, 1); (51, 1); (52, 1); (53, 2); (55, 1); (56, 1); (57, 1)]%Z.
Definition cyi : list (Z * Z) := [(1,1);(2,1);(-1,-1);(-2,-1);(-3,-1);(-4,-1);(-5,-1);(-6,-1)]%Z.
Definition px2 (k : nat) (X : tm) : pw := chain k cx2 [(1%Z, X); (0%Z, cst 1%float)].
Definition py2 (k : nat) (Y : tm) : pw := chain k cy2 [(1%Z, Y); (0%Z, cst 1%float)].
Definition bpi (k : nat) (l : list (Z * Z)) (X : tm) : pw := chain k l ((-1, tinv k X)%Z :: [(1%Z, X); (0%Z, cst 1%float)]).
Definition tau2 (k : nat) (Y : tm) : tm := tlin k [(1%float, Y); (0.5%float, one)].
Definition pyi (k : nat) (Y : tm) : pw := bpi k cyi (tau2 k Y).

Definition t2_0 : gtab float := Eval vm_compute in tfl tab2.
Definition t2_x : gtab float := Eval vm_compute in tfl (xdD tab2).
Definition t2_xx : gtab float := Eval vm_compute in tfl (xxdD tab2).
Definition t2_y : gtab float := Eval vm_compute in tfl (dyD tab2).
Definition t2_xy : gtab float := Eval vm_compute in tfl (dyD (xdD tab2)).
Definition t2_yy : gtab float := Eval vm_compute in tfl (dyD (dyD tab2)).
Definition i2_0 : gtab float := Eval vm_compute in tfl tid2.
Definition i2_y : gtab float := Eval vm_compute in tfl (dyD tid2).
Definition i2_yy : gtab float := Eval vm_compute in tfl (dyD (dyD tid2)).

(* ---- boxes without states of region 2 ---- *)
Definition boxnn (x0 x1 y0 y1 : float) : bool := PrimFloat.leb 0 x0 && between x0 x1 && bpos y0 y1.
(* temperature in 1e-4 K, rounded up, of y = yn/yd *)
Definition tup4 (yn yd : Z) : Z := ((10800000 * yd) / (2 * yn + yd) + 1)%Z.
(* the boundary of regions 2 and 3 at t/10^4, plus 2e-9, is not above x = xn/xd *)
Definition b23z (t xn xd : Z) : bool :=
  ((34805185629169 * 10000000000000 - 11671859879975 * t * 10000000 + 10192970039326 * t * t) * xd <=? xn * 1000000000000000000000000)%Z.
(* the fourth root of x - 2e-9 in 1e-9, rounded down *)
Definition q4 (xn xd : Z) : Z := Z.sqrt (Z.sqrt ((xn * 1000000000000000000000000000000000000 - 2000000000000000000000000000 * xd) / xd))%Z.
Definition outz (xn xd yn yd : Z) : bool :=
  let t := tup4 yn yd in
  if (t <=? 6231500)%Z then zle t (q4 xn xd) else (t <=? 8631500)%Z && b23z t xn xd.
Definition out2x (x0 x1 y0 y1 : float) : bool :=
  boxnn x0 x1 y0 y1 && match flq x0, flq y0 with Some (xn, xd), Some (yn, yd) => outz xn xd yn yd | _, _ => false end.
Definition out2q (x0 x1 y0 y1 : float) : bool :=
  boxnn x0 x1 y0 y1 && match flq x0, flq y0 with Some (xn, xd), Some (yn, yd) => outz (xn * xn * (xn * xn)) (xd * xd * (xd * xd)) yn yd | _, _ => false end.
(* approximations in binary64, to guess where the boundary is *)
Section Guess.
Open Scope float_scope.
Definition psf (T : float) : float :=
  let v := T + (-0.23855557567849) / (T - 0.65017534844798e3) in
  let A := v*v + 0.11670521452767e4*v - 0.72421316703206e6 in
  let B := (-0.17073846940092e2)*v*v + 0.12020824702470e5*v - 0.32325550322333e7 in
  let C := 0.14915108613530e2*v*v - 0.48232657361591e4*v + 0.40511340542057e6 in
  let s := 2*C / (- B + sqrt (B*B - 4*A*C)) in s*s*s*s.
Definition bnd (T : float) : float :=
  if PrimFloat.ltb T 623.15 then psf T else if PrimFloat.ltb T 863.15 then 348.05185628969 - 1.1671859879975 * T + 0.0010192970039326 * T * T else 1000.
Definition rnd12 (p : float) : float := let q := p * 4096 in (q + p) - q.
Definition cutx (y0 : float) : float := let p := bnd (540 / (y0 + 0.5) + 0.0002) in rnd12 (p * 1.0001 + 0x1p-20).
Definition cutq (y0 : float) : float := rnd12 (sqrt (sqrt (cutx y0))).
Definition maybe (x0 y0 : float) : bool :=
  let T := 540 / (y0 + 0.5) + 0.0001 in
  if PrimFloat.ltb 863 T then false else PrimFloat.ltb (bnd T) x0.
End Guess.
Definition ox (x0 x1 y0 y1 : float) : bool := if maybe x0 y0 then out2x x0 x1 y0 y1 else false.
Definition oq (x0 x1 y0 y1 : float) : bool := if maybe (x0 * x0 * x0 * x0)%float y0 then out2q x0 x1 y0 y1 else false.

Section Build.
Variables (leaf out : float -> float -> float -> float -> bool) (cut : float -> float).
Fixpoint build2 (n : nat) (d : bool) (x0 x1 y0 y1 : float) : tree :=
  if out x0 x1 y0 y1 then Out else
  match n with
  | O => Lf
  | S n' =>
    let c := cut y0 in
    if PrimFloat.ltb x0 c && PrimFloat.ltb (c + c * 0x1p-8)%float x1 then Sx c (build2 n' d x0 c y0 y1) Out else
    if leaf x0 x1 y0 y1 then Lf else
    let d := if PrimFloat.ltb (2 * cut y1)%float x1 then false else d in
    if d then let m := vmid x0 x1 in Sx m (build2 n' false x0 m y0 y1) (build2 n' false m x1 y0 y1)
         else let m := vmid y0 y1 in Sy m (build2 n' true x0 x1 y0 m) (build2 n' true x0 x1 m y1)
  end.
End Build.
(* all pressures and temperatures; pressures from below 611 Pa to 4 MPa, fourth roots of these, pressures above *)
Definition ay0 := 0x1.a25p-9%float. Definition ay1 := 0x1.7a188p0%float.
Definition ax0 := 0%float. Definition ax1 := 100%float.
Definition al0 := 0x1.4p-11%float. Definition al1 := 4%float.
Definition aq0 := 0x1.41ep-3%float. Definition aq1 := 0x1.6a0ap0%float.

(* ---- the signs ---- *)
(* 1 + x Px, 1 - x^2 Pxx, the second derivative with respect to the reduced inverse temperature *)
Definition tZ (k : nat) (px py : pw) : tm := tadd one (psum k px py t2_x).
Definition tK (k : nat) (px py : pw) : tm := tsub one (psum k px py t2_xx).
Definition tC (k : nat) (px py pi : pw) : tm := tadd (psum k [] pi i2_yy) (psum k px py t2_yy).
Definition lfZ (k : nat) (x0 x1 y0 y1 : float) : bool :=
  boxnn x0 x1 y0 y1 && lpos (tZ k (px2 k (varu x0 x1)) (py2 k (varv y0 y1))).
Definition lfK (k : nat) (x0 x1 y0 y1 : float) : bool :=
  boxnn x0 x1 y0 y1 && lpos (tK k (px2 k (varu x0 x1)) (py2 k (varv y0 y1))).
Definition lfC (k : nat) (x0 x1 y0 y1 : float) : bool :=
  boxnn x0 x1 y0 y1 && lneg (tC k (px2 k (varu x0 x1)) (py2 k (varv y0 y1)) (pyi k (varv y0 y1))).
Definition tD (k : nat) (Y : tm) (px py pi : pw) : tm :=
  let t := tau2 k Y in
  let d := tsub (tZ k px py) (tmul k t (psum k px py t2_xy)) in
  tadd (tmul k (tmul k (tmul k t t) (tC k px py pi)) (tK k px py)) (tmul k d d).
Definition lfD (k : nat) (x0 x1 y0 y1 : float) : bool :=
  boxnn x0 x1 y0 y1 && lneg (tD k (varv y0 y1) (px2 k (varu x0 x1)) (py2 k (varv y0 y1)) (pyi k (varv y0 y1))).

(* ---- T(p,h) ---- *)
Definition tpha : list (Z * Z * dec) := Eval cbv in @ph2T_reg2a_IJn DArith.
Definition tphb : list (Z * Z * dec) := Eval cbv in @ph2T_reg2b_IJn DArith.
Definition tphc : list (Z * Z * dec) := Eval cbv in @ph2T_reg2c_IJn DArith.
Definition fpha : gtab float := Eval vm_compute in tfl tpha.
Definition fphb : gtab float := Eval vm_compute in tfl tphb.
Definition fphc : gtab float := Eval vm_compute in tfl tphc.
Definition c7 : list (Z*Z) := [(1,1);(2,1);(3,1);(4,1);(5,1);(6,1);(7,2)]%Z.
Definition cha : list (Z*Z) := [(1,1);(2,1);(2,2);(4,3);(7,2);(9,2);(3,9);(9,9);(18,2);(20,4);(24,4);(28,4);(32,2);(34,2);(36,2);(38,2);(40,2);(40,4)]%Z.
Definition chb : list (Z*Z) := [(1,1);(2,2);(4,2);(4,4);(6,6);(12,6);(12,12);(24,4);(28,12)]%Z.
Definition chc : list (Z*Z) := [(1,1);(2,2);(4,4);(8,2);(8,4);(12,4);(10,10);(20,2)]%Z.
Definition cxc : list (Z*Z) := [(1,1);(2,2);(4,2);(-1,-1);(-2,-2);(-4,-1);(-4,-2);(-6,-1)]%Z.
(* h / (540 R) and T *)
Definition hh (k : nat) (px py pi : pw) : tm := tadd (psum k [] pi i2_y) (psum k px py t2_y).
Definition T2 (k : nat) (Y : tm) : tm := tmul k (cst 540%float) (tinv k (tau2 k Y)).
(* 540 R and 540 R / 2000 *)
Definition kH : float := 249.22404%float.
Definition kh : float := 0.12461202%float.
Definition test1 (tol : float) (l : list tm) : bool := match l with [g] => absle g tol | _ => false end.
Definition gap_pha (k : nat) (X Y h : tm) : tm :=
  tsub (psum k (bp k c7 X) (bp k cha (tlin k [(kh, h); ((-2.1)%float, one)])) fpha) (T2 k Y).
(* also: h > 2100 *)
Definition lfpha (tol : float) (k' n k : nat) (x0 x1 y0 y1 : float) : bool :=
  if boxnn x0 x1 y0 y1 then
    let X := varu x0 x1 in let Y := varv y0 y1 in
    let h := hh k (px2 k X) (py2 k Y) (pyi k Y) in
    if lpos (tlin k [(kH, h); ((-2100)%float, one)]) then
      inner k' (test1 tol) (fun l => l) ox n x0 x1 y0 y1 [gap_pha k X Y h]
    else false
  else false.
Definition tsel (k : nat) (X hd : tm) : tm :=
  tlin k [(1%float, X); ((-4.5257578905948)%float, one); ((-0.00012809002730136)%float, tmul k hd hd)].
Definition gap_phb (k : nat) (X Y h : tm) : tm :=
  tsub (psum k (bp k c7 (tlin k [(1%float, X); ((-2)%float, one)])) (bp k chb (tlin k [(kh, h); ((-2.6)%float, one)])) fphb) (T2 k Y).
Definition gap_phc (k : nat) (X Y h : tm) : tm :=
  tsub (psum k (bpi k cxc (tlin k [(1%float, X); (25%float, one)])) (bp k chc (tlin k [(kh, h); ((-1.8)%float, one)])) fphc) (T2 k Y).
Definition test2 (tol : float) (l : list tm) : bool :=
  match l with
  | [sel; hd; gb; gc] => (if lpos sel then true else absle gb tol) && (if absle gc tol then true else lneg sel && lpos hd)
  | _ => false
  end.
Definition pick2 (l : list tm) : list tm :=
  match l with [sel; hd; gb; gc] => (if lpos sel then [] else [gb]) ++ (if lneg sel && lpos hd then [] else [gc]) | _ => [] end.
Definition lfphb (tol : float) (k' n k : nat) (x0 x1 y0 y1 : float) : bool :=
  if boxnn x0 x1 y0 y1 then
    let X := varu x0 x1 in let Y := varv y0 y1 in
    let h := hh k (px2 k X) (py2 k Y) (pyi k Y) in
    let hd := tlin k [(kH, h); ((-2652.6571908428)%float, one)] in
    let sel := tsel k X hd in
    let gb := if lpos sel then tbad else gap_phb k X Y h in
    let gc := if lneg sel && lpos hd then tbad else gap_phc k X Y h in
    if lpos (tlin k [(kH, h); ((-2100)%float, one)]) then
      inner k' (test2 tol) pick2 ox n x0 x1 y0 y1 [sel; hd; gb; gc]
    else false
  else false.

(* ---- T(p,s) ---- *)
(* s / R; LX is the logarithm of the pressure *)
Definition ss (k : nat) (LX Y : tm) (px py pi : pw) : tm :=
  tsub (tsub (tmul k (tau2 k Y) (hh k px py pi)) (tadd (psum k [] pi i2_0) (psum k px py t2_0))) LX.
(* the exponents of the pressure are multiples of 1/4 *)
Definition tpsa : list (Z * Z * dec) := Eval cbv in map (fun e : dec * Z * dec => let '(i, j, n) := e in ((4 * dm i / 10 ^ (- de i))%Z, j, n)) (@ps2T_reg2a_IJn DArith).
Definition tpsb : list (Z * Z * dec) := Eval cbv in @ps2T_reg2b_IJn DArith.
Definition tpsc : list (Z * Z * dec) := Eval cbv in @ps2T_reg2c_IJn DArith.
Definition fpsa : gtab float := Eval vm_compute in tfl tpsa.
Definition fpsb : gtab float := Eval vm_compute in tfl tpsb.
Definition fpsc : gtab float := Eval vm_compute in tfl tpsc.
Definition csb : list (Z*Z) := [(1,1);(2,1);(2,2);(4,1);(3,3);(4,3);(4,4);(8,1);(8,2);(8,3);(6,6)]%Z.
Definition csc : list (Z*Z) := [(1,1);(2,1);(2,2);(3,2)]%Z.
Definition cpb : list (Z*Z) := [(1,1);(2,1);(2,2);(3,2);(3,3);(4,3);(-1,-1);(-2,-1);(-2,-2);(-3,-2);(-3,-3)]%Z.
Definition cqa : list (Z*Z) := [(1,1);(2,1);(2,2);(4,1);(3,3);(-1,-1);(-2,-1);(-2,-2);(-4,-1);(-3,-3)]%Z.
Definition csa : list (Z*Z) := [(1,1);(2,1);(2,2);(4,1);(5,1);(6,1);(7,1);(8,1);(9,1);(10,1);(10,4);(14,1);(15,1);(16,1);(17,1);
 (-1,-1);(-2,-2);(-4,-2);(-6,-1);(-7,-1);(-8,-1);(-9,-1);(-10,-1);(-11,-2);(-13,-1);(-14,-1);(-15,-1);(-16,-1);(-17,-2);(-19,-2);(-21,-2);(-23,-1);(-24,-1);(-25,-1);(-26,-1)]%Z.
(* R, R / 2, -R / 0.7853, -R / 2.9251 *)
Definition kS : float := 0.461526%float.
Definition kSa : float := 0.230763%float.
Definition kSb : float := (-0x1.2ce7e17213090p-1)%float.
Definition kSc : float := (-0x1.4322d3e83dc01p-3)%float.
Definition gap_psa (k : nat) (Q Y s : tm) : tm :=
  tsub (psum k (bpi k cqa Q) (bpi k csa (tlin k [(kSa, s); ((-2)%float, one)])) fpsa) (T2 k Y).
(* also: s > 4.5 *)
Definition lfpsa (tol : float) (k' n k : nat) (x0 x1 y0 y1 : float) : bool :=
  if boxnn x0 x1 y0 y1 then
    let Q := varu x0 x1 in let Y := varv y0 y1 in
    let Q2 := tmul k Q Q in
    let X := tmul k Q2 Q2 in
    let s := ss k (tlin k [(4%float, tln k Q)]) Y (px2 k X) (py2 k Y) (pyi k Y) in
    if lpos (tlin k [(kS, s); ((-4.5)%float, one)]) then
      inner k' (test1 tol) (fun l => l) oq n x0 x1 y0 y1 [gap_psa k Q Y s]
    else false
  else false.
Definition gap_psb (k : nat) (X Y s : tm) : tm :=
  tsub (psum k (bpi k cpb X) (bp k csb (tlin k [(kSb, s); (10%float, one)])) fpsb) (T2 k Y).
Definition gap_psc (k : nat) (X Y s : tm) : tm :=
  tsub (psum k (bpi k cpb X) (bp k csc (tlin k [(kSc, s); (2%float, one)])) fpsc) (T2 k Y).
Definition test3 (tol : float) (l : list tm) : bool :=
  match l with
  | [sel; gb; gc] => (if lneg sel then true else absle gb tol) && (if absle gc tol then true else lpos sel)
  | _ => false
  end.
Definition pick3 (l : list tm) : list tm :=
  match l with [sel; gb; gc] => (if lneg sel then [] else [gb]) ++ (if lpos sel then [] else [gc]) | _ => [] end.
Definition lfpsb (tol : float) (k' n k : nat) (x0 x1 y0 y1 : float) : bool :=
  if boxnn x0 x1 y0 y1 then
    let X := varu x0 x1 in let Y := varv y0 y1 in
    let s := ss k (tln k X) Y (px2 k X) (py2 k Y) (pyi k Y) in
    let sel := tlin k [(kS, s); ((-5.85)%float, one)] in
    let gb := if lneg sel then tbad else gap_psb k X Y s in
    let gc := if lpos sel then tbad else gap_psc k X Y s in
    if lpos (tlin k [(kS, s); ((-4.5)%float, one)]) then
      inner k' (test3 tol) pick3 ox n x0 x1 y0 y1 [sel; gb; gc]
    else false
  else false.
