(* Enclosures for the region map of hs in region 1. *)
From Coq Require Import ZArith Reals List Bool Floats.
From Verif Require Import Num RealInst FloatInst FloatErr FloatUp RSums Taylor TaylorSum TaylorSub Reg1 Reg1Back Boundaries Enc1 Enc2 Enc2m.
Import ListNotations.
Open Scope R_scope.

Definition tab_h1 : list (Z * Z * dec) := Eval cbv in @hs_region_h1_s_IJn DArith.
Definition fh1 : gtab float := Eval vm_compute in tfl tab_h1.
Definition ci1 : list (Z*Z) := [(1,1);(2,1);(2,2);(4,1);(5,2);(4,4);(8,4);(12,2);(8,8);(16,4);(20,2);(20,4);(24,4);(16,16)]%Z.
Definition cj1 : list (Z*Z) := [(1,1);(2,1);(2,2);(4,1);(4,2);(4,4);(8,2);(8,4);(10,4);(12,4);(14,4);(18,4);(12,12);(14,14);(18,18)]%Z.
(* polynomials in z = (s - 1.676)/1.685, above h1(s) and below the enthalpy that the code
   takes for the limit at 100 MPa *)
Definition tU1 : list (Z * Z * dec) := [(0%Z, 0%Z, (563.185)%dec); (0%Z, 1%Z, (687.4629)%dec); (0%Z, 2%Z, (138.6401)%dec); (0%Z, 3%Z, (18.4357)%dec); (0%Z, 4%Z, (1.8409)%dec); (0%Z, 5%Z, (0.0501)%dec); (0%Z, 6%Z, (-0.5044)%dec); (0%Z, 7%Z, (-0.5725)%dec); (0%Z, 8%Z, (-0.2382)%dec)].
Definition tL1 : list (Z * Z * dec) := [(0%Z, 0%Z, (667.8298)%dec); (0%Z, 1%Z, (700.9127)%dec); (0%Z, 2%Z, (145.3357)%dec); (0%Z, 3%Z, (15.6478)%dec); (0%Z, 4%Z, (-1.2406)%dec); (0%Z, 5%Z, (4.6935)%dec); (0%Z, 6%Z, (3.5685)%dec); (0%Z, 7%Z, (-4.1671)%dec); (0%Z, 8%Z, (-3.891)%dec); (0%Z, 9%Z, (0.7436)%dec); (0%Z, 10%Z, (1.4725)%dec)].
Definition fU1 : gtab float := Eval vm_compute in tfl tU1.
Definition fL1 : gtab float := Eval vm_compute in tfl tL1.
Definition fU1' : gtab float := Eval vm_compute in tfl (dyD tU1).
Definition fL1' : gtab float := Eval vm_compute in tfl (dyD tL1).
Definition c337 : float := 0x1.2fdb897edc4bfp-1%float. (* 200/337 *)
Definition z1m (k : nat) (S : tm) : tm := sh1 k c337 (-0x1.fd43e983b8e5bp-1)%float S.
Definition kH1 : float := 639.675036%float.
Definition x100e (k : nat) : tm := tlin k [(0x1.0ce69202e95bap+0%float, one)]. (* 7.1 - 100/16.53 *)
Definition f336 := 0x1.ae20000000000p+1%float.
Definition fsm := (-0x1.188f800000000p-7)%float. (* between s(99.8 MPa, 0 C) and s(100 MPa, 0 C) *)
Definition y273e (k : nat) : tm := tlin k [(0x1.44bea11b69dbcp+2%float, one); ((-1.222)%float, one)].
Definition fs0 := (-0x1.2000000000000p-7)%float. (* below s(100 MPa, 0 C) *)
Definition mx998 := 0x1.0fff800000000p+0%float. (* below x of 99.8 MPa *)
Definition my583 := 0x1.279d700000000p+0%float. Definition my623 := by0.
Definition pol (k : nat) (t : gtab float) (S : tm) : tm := psum k [] (bp k c10 (z1m k S)) t.
Definition h1E (k : nat) (px py : pw) : tm := tlin k [(kH1, psum k px py t1_y)].
Definition s1E (k : nat) (px py : pw) (Y : tm) : tm := tlin k [(0.461526%float, ent1 k px py Y)].
(* U(s) - h1(s) *)
Definition gap_u (k : nat) (S : tm) : tm :=
  tlin k [(1%float, pol k fU1 S); ((-1700)%float, psum k (bp k ci1 (sh1 k 0x1.0d79435e50d79p-2%float (-1.09)%float S)) (bp k cj1 (sh1 k 0x1.0d79435e50d79p-2%float 0.366e-4%float S)) fh1)].
(* the enthalpy at 100 MPa and T(100,s) - 0.0218 K *)
Definition topY (k : nat) (S : tm) : tm :=
  let T := psum k (bp k cp_ph (cst 100%float)) (bp k ce_ps (sh1 k 1 2 S)) fps1 in
  sh1 k 1386 (-1.222)%float (tinv k (sh1 k 1 (-0.0218)%float T)).
Definition topH (k : nat) (Y : tm) : tm := h1E k (px1 k (x100e k)) (py1 k Y).
Definition l_u (k : nat) (a b : float) : bool := lpos (gap_u k (varu a b)).
Definition l_l (k : nat) (a b : float) : bool :=
  let S := varu a b in let Y := topY k S in
  if lpos Y then lpos (tsub (topH k Y) (pol k fL1 S)) else false.
(* at 100 MPa: L(s) - h > -5/32; h > the limit of the code *)
Definition l_t (k : nat) (a b : float) : bool :=
  if bpos a b then
    let Y := varu a b in let px := px1 k (x100e k) in let py := py1 k Y in
    lpos (tadd (tsub (pol k fL1 (s1E k px py Y)) (h1E k px py)) (cst 0x1.4p-3%float))
  else false.
Definition l_r (k : nat) (a b : float) : bool :=
  if bpos a b then
    let Y := varu a b in let px := px1 k (x100e k) in let py := py1 k Y in
    let Y' := topY k (s1E k px py Y) in
    if lpos Y' then lpos (tsub (h1E k px py) (topH k Y')) else false
  else false.
(* the saturation line: the temperature T - 0.1 K of Enc2m; h' - U(s') > -1/256 *)
Definition lfS (k : nat) (c : float) (cs : list float) (y0 y1 : float) : bool :=
  if bpos y0 y1 then
    let Y := varu y0 y1 in
    let Ts := tlin k [(1%float, T2 k Y); ((-0.1)%float, one)] in
    let x := tlin k [(1%float, Ts); ((-0.23855557567849)%float, tinv k (tlin k [(1%float, Ts); ((-650.17534844798)%float, one)]))] in
    let B := hor k (tadd Y (cst (- c)%float)) cs in
    if satok k x B then
      let Q := tadd B (TM [] rb) in
      let Q2 := tmul k Q Q in
      let Y1 := sh1 k 1386 (-1.222)%float (tinv k Ts) in
      let px := px1 k (sh1 k (-0x1.ef9573118013dp-5)%float 7.1%float (tmul k Q2 Q2)) in
      let py := py1 k Y1 in
      lpos (tadd (tsub (h1E k px py) (pol k fU1 (s1E k px py Y1))) (cst 0x1p-8%float))
    else false
  else false.
Definition guess1 : list (float * float * float * list float) :=
  match guess with
  | _ :: (_, b, c, cs) :: r => (0x1.b4p-2%float, b, c, cs) ::
      map (fun e : float * float * float * list float => let '(a, b, c, cs) := e in (a, if PrimFloat.leb 0x1.79p+0 b then 0x1.79ecp+0%float else b, c, cs)) r
  | _ => [] end.
Definition lineS (n k : nat) : bool := forallb (fun p : float * float * float * list float => let '(a, b, c, cs) := p in line (lfS k c cs) n a b) guess1.
(* the interior: dh/dx - U'(s) ds/dx at constant y, and the same for L, over -0.461526 *)
Definition slp (k : nat) (A B t : tm) (D : tm) : tm :=
  let D1 := tlin k [(c337, D)] in
  tlin k [((-1)%float, tmul k A D1); ((-1)%float, tmul k B (tlin k [(1386%float, one); ((-1)%float, tmul k t D1)])); ((-32.25)%float, one)].
Definition lf1m (k : nat) (x0 x1 y0 y1 : float) : bool :=
  if boxok x0 x1 y0 y1 then
    let Y := varv y0 y1 in
    let px := px1 k (varu x0 x1) in let py := py1 k Y in
    let S := s1E k px py Y in
    let A := psum k px py t1_x in let B := psum k px py t1_xy in let t := tau1 k Y in
    ltc f336 S && gtc (-1) (h1E k px py) && lpos (slp k A B t (pol k fU1' S)) && lpos (slp k A B t (pol k fL1' S))
  else false.
(* the entropy at 0 C *)
Definition l_0 (k : nat) (a b : float) : bool :=
  let Y := y273e k in gtc fsm (s1E k (px1 k (varu a b)) (py1 k Y) Y).
