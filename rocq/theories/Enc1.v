(* Enclosures for region 1: boxes in x = 7.1 - p/16.53 and y = 1386/T - 1.222. *)
From Coq Require Import ZArith Reals List Bool Floats Lra.
From Verif Require Import Num RealInst FloatInst FloatErr FloatUp Steps RSums Taylor TaylorSum Reg1 Reg1Back.
Import ListNotations.
Open Scope R_scope.

Definition tab1 : list (Z * Z * dec) := Eval cbv in @region1_gfe_IJn DArith.
Lemma tab1_ok : @region1_gfe_IJn RArith = map rrow tab1. Proof. reflexivity. Qed.

(* the exponents that occur, each from two smaller ones *)
Definition cx1 : list (Z * Z) := [(1, 1); (2, 1); (3, 1); (4, 1); (5, 1); (6, 1); (7, 1); (8, 2); (8, 1); (10, 9); (19, 1); (20, 1); (21, 1); (22, 1); (23, 4); (27, 1); (28, 1); (29, 1); (30, 1); (31, 1)]%Z.
Definition cy1 : list (Z * Z) := [(1, 1); (2, 1); (3, 1); (4, 1); (5, 1); (6, 2); (8, 1); (9, 1); (10, 5); (15, 1); (16, 1); (-1, -1); (-2, -1); (-3, -1); (-4, -1); (-5, -1); (-6, -1); (-7, -1); (-8, -1); (-9, -1); (-10, -1); (-11, -1); (-12, -1); (-13, -2); (-13, -1); (-15, -14); (-29, -1); (-30, -1); (-31, -1); (-32, -1); (-33, -5); (-38, -1); (-39, -1); (-40, -1); (-41, -1); (-42, -1)]%Z.
Definition nodes1 : list (float * float) := [(0x1.c025000000000p+2, 0x1.b226000000000p+0); (0x1.ba25400000000p+2, 0x1.7ee2000000000p+0); (0x1.adfc000000000p+2, 0x1.49f2000000000p+0); (0x1.aae3000000000p+2, 0x1.40c4000000000p+0); (0x1.a77f400000000p+2, 0x1.37d8000000000p+0); (0x1.a4c0000000000p+2, 0x1.3150000000000p+0); (0x1.a2d1000000000p+2, 0x1.2d08000000000p+0); (0x1.a0ccc00000000p+2, 0x1.28d0000000000p+0); (0x1.9fc2800000000p+2, 0x1.26ba000000000p+0); (0x1.9eb2000000000p+2, 0x1.24a6000000000p+0); (0x1.9d9cc00000000p+2, 0x1.2298000000000p+0); (0x1.9c80c00000000p+2, 0x1.208c000000000p+0); (0x1.9b5f000000000p+2, 0x1.1e84000000000p+0); (0x1.9a37c00000000p+2, 0x1.1c80000000000p+0); (0x1.9909400000000p+2, 0x1.1a7e000000000p+0); (0x1.97d5000000000p+2, 0x1.1880000000000p+0); (0x1.969a800000000p+2, 0x1.1686000000000p+0); (0x1.95fac00000000p+2, 0x1.158a000000000p+0); (0x1.9464400000000p+2, 0x1.1318000000000p+0); (0x1.92c4000000000p+2, 0x1.10ac000000000p+0); (0x1.9219400000000p+2, 0x1.0fb4000000000p+0); (0x1.916e000000000p+2, 0x1.0ebe000000000p+0); (0x1.8fe6400000000p+2, 0x1.0c98000000000p+0); (0x1.8f08800000000p+2, 0x1.0b68000000000p+0); (0x1.8d9e400000000p+2, 0x1.0982000000000p+0); (0x1.8ce7c00000000p+2, 0x1.0892000000000p+0); (0x1.8c00000000000p+2, 0x1.0766000000000p+0); (0x1.8b44000000000p+2, 0x1.0676000000000p+0); (0x1.8ae6800000000p+2, 0x1.0600000000000p+0); (0x1.8a28400000000p+2, 0x1.0512000000000p+0); (0x1.8967400000000p+2, 0x1.0424000000000p+0); (0x1.8906c00000000p+2, 0x1.03ae000000000p+0); (0x1.88be400000000p+2, 0x1.0356000000000p+0); (0x1.885c800000000p+2, 0x1.02e0000000000p+0); (0x1.87fa400000000p+2, 0x1.026a000000000p+0); (0x1.87c7c00000000p+2, 0x1.022e000000000p+0); (0x1.8772000000000p+2, 0x1.01c8000000000p+0); (0x1.870e000000000p+2, 0x1.0152000000000p+0); (0x1.86dc800000000p+2, 0x1.0118000000000p+0); (0x1.86ab000000000p+2, 0x1.00de000000000p+0)]%float.

Definition px1 (k : nat) (X : tm) : pw := chain k cx1 [(1%Z, X); (0%Z, cst 1%float)].
Definition py1 (k : nat) (Y : tm) : pw := chain k cy1 ((-1, tinv k Y)%Z :: [(1%Z, Y); (0%Z, cst 1%float)]).

Definition t1_0 : gtab float := Eval vm_compute in tfl tab1.
Definition t1_x : gtab float := Eval vm_compute in tfl (dxD tab1).
Definition t1_y : gtab float := Eval vm_compute in tfl (dyD tab1).
Definition t1_xx : gtab float := Eval vm_compute in tfl (dxD (dxD tab1)).
Definition t1_xy : gtab float := Eval vm_compute in tfl (dyD (dxD tab1)).
Definition t1_yy : gtab float := Eval vm_compute in tfl (dyD (dyD tab1)).

Section Build.
Variables leaf out : float -> float -> float -> float -> bool.
Fixpoint build (n : nat) (d : bool) (x0 x1 y0 y1 : float) : tree :=
  if out x0 x1 y0 y1 then Out else if leaf x0 x1 y0 y1 then Lf else
  match n with
  | O => Lf
  | S n' => if d then let m := vmid x0 x1 in Sx m (build n' false x0 m y0 y1) (build n' false m x1 y0 y1)
            else let m := vmid y0 y1 in Sy m (build n' true x0 x1 y0 m) (build n' true x0 x1 m y1)
  end.
End Build.
Fixpoint leaves (t : tree) : nat * nat := match t with Lf => (1,0)%nat | Out => (0,1)%nat | Sx _ a b | Sy _ a b => (fst (leaves a) + fst (leaves b), snd (leaves a) + snd (leaves b))%nat end.

(* boxes of positive numbers *)
Definition bpos (a b : float) : bool := PrimFloat.ltb 0 a && between a b.
Definition boxok (x0 x1 y0 y1 : float) : bool := bpos x0 x1 && bpos y0 y1.
(* no state of region 1 in the box: every pressure is below that of a point of the
   saturation line that is not warmer *)
Definition out1 (x0 x1 y0 y1 : float) : bool :=
  boxok x0 x1 y0 y1 && existsb (fun n => PrimFloat.ltb (fst n) x0 && PrimFloat.leb y1 (snd n)) nodes1.
Definition psum (k : nat) (px py : pw) (t : gtab float) : tm := gsum k px py t (TM [] 0%float).
Definition bx0 := 0x1.0ce6920000000p+0%float. Definition bx1 := 0x1.c666666700000p+2%float.
Definition by0 := 0x1.008f1a7000000p+0%float. Definition by1 := 0x1.ed12c33e00000p+1%float.

(* the four partial derivatives that have a sign in region 1 *)
Definition leaf1 (k : nat) (t : gtab float) (x0 x1 y0 y1 : float) : bool :=
  boxok x0 x1 y0 y1 && lneg (psum k (px1 k (varu x0 x1)) (py1 k (varv y0 y1)) t).
Definition one : tm := cst 1%float.
Definition c1222 : float := 0x1.38d4fdf3b645ap+0%float.
Definition tau1 (k : nat) (Y : tm) : tm := tlin k [(1%float, Y); (c1222, one)].
Definition det1 (k : nat) (x0 x1 y0 y1 : float) : bool :=
  let Y := varv y0 y1 in
  let px := px1 k (varu x0 x1) in
  let py := py1 k Y in
  let t := tau1 k Y in
  let d := tsub (psum k px py t1_x) (tmul k t (psum k px py t1_xy)) in
  boxok x0 x1 y0 y1 &&
  lpos (tsub (tmul k (tmul k (tmul k t t) (psum k px py t1_yy)) (psum k px py t1_xx)) (tmul k d d)).

(* the backward equations *)
Definition tp1 (k : nat) (X : tm) : tm := tlin k [(117.363%float, one); ((-16.53)%float, X)].
Definition tT1 (k : nat) (Y : tm) : tm := tmul k (cst 1386%float) (tinv k (tau1 k Y)).
Definition bp (k : nat) (l : list (Z * Z)) (X : tm) : pw := chain k l [(1%Z, X); (0%Z, cst 1%float)].
Definition cp_ph : list (Z * Z) := [(1, 1); (2, 1); (2, 2); (3, 2); (3, 3)]%Z.
Definition ce_ph : list (Z * Z) := [(1, 1); (2, 1); (2, 2); (4, 2); (6, 4); (6, 6); (10, 12); (22, 10)]%Z.
Definition ce_ps : list (Z * Z) := [(1, 1); (2, 1); (3, 3); (6, 3); (9, 1); (10, 1); (11, 1); (11, 9); (20, 11); (31, 1)]%Z.
Definition ce_hs : list (Z * Z) := [(1, 1); (2, 2); (4, 1); (4, 2); (4, 4); (8, 2); (10, 4)]%Z.
Definition tph1 : list (Z * Z * dec) := Eval cbv in @ph2T_reg1_IJn DArith.
Definition tps1 : list (Z * Z * dec) := Eval cbv in @ps2T_reg1_IJn DArith.
Definition ths1 : list (Z * Z * dec) := Eval cbv in @hs2p_reg1_IJn DArith.
Definition fph1 : gtab float := Eval vm_compute in tfl tph1.
Definition fps1 : gtab float := Eval vm_compute in tfl tps1.
Definition fhs1 : gtab float := Eval vm_compute in tfl ths1.
(* 0.461526 * 1386 / 2500, 0.461526 * 1386 / 3400, 0.461526 / 7.6 *)
Definition c_h25 : float := 0x1.0602c9ff800cep-2%float.
Definition c_h34 : float := (0x1.814f654a8f220p-3)%float.
Definition c_s76 : float := (0x1.f179f862c09d9p-5)%float.
Definition gap_ph (k : nat) (x0 x1 y0 y1 : float) : tm :=
  let X := varu x0 x1 in let Y := varv y0 y1 in
  let e := tlin k [(c_h25, psum k (px1 k X) (py1 k Y) t1_y); (1%float, one)] in
  tsub (psum k (bp k cp_ph (tp1 k X)) (bp k ce_ph e) fph1) (tT1 k Y).
Definition ent1 (k : nat) (px py : pw) (Y : tm) : tm :=
  tsub (tmul k (tau1 k Y) (psum k px py t1_y)) (psum k px py t1_0).
Definition gap_ps (k : nat) (x0 x1 y0 y1 : float) : tm :=
  let X := varu x0 x1 in let Y := varv y0 y1 in
  let e := tlin k [(0.461526%float, ent1 k (px1 k X) (py1 k Y) Y); (2%float, one)] in
  tsub (psum k (bp k cp_ph (tp1 k X)) (bp k ce_ps e) fps1) (tT1 k Y).
Definition gap_hs (k : nat) (x0 x1 y0 y1 : float) : tm :=
  let X := varu x0 x1 in let Y := varv y0 y1 in
  let px := px1 k X in let py := py1 k Y in
  let e := tlin k [(c_h34, psum k px py t1_y); (0.05%float, one)] in
  let s := tlin k [(c_s76, ent1 k px py Y); (0.05%float, one)] in
  tlin k [(100%float, psum k (bp k cp_ph e) (bp k ce_hs s) fhs1); ((-1)%float, tp1 k X)].
Definition within (g : nat -> float -> float -> float -> float -> tm) (tol : float) (k : nat) (x0 x1 y0 y1 : float) : bool :=
  boxok x0 x1 y0 y1 && absle (g k x0 x1 y0 y1) tol.
