(* Enclosures for p(h,s) in region 2: boxes in q = p^(1/4) and y = 540/T - 1/2. *)
From Coq Require Import ZArith Reals List Bool Floats.
From Verif Require Import Num RealInst FloatInst FloatErr FloatUp RSums Taylor TaylorSum TaylorSub Reg2 Reg2Back Enc1 Enc2.
Import ListNotations.
Open Scope R_scope.

Definition thsa : list (Z * Z * dec) := Eval cbv in @hs2p_reg2a_IJn DArith.
Definition thsb : list (Z * Z * dec) := Eval cbv in @hs2p_reg2b_IJn DArith.
Definition thsc : list (Z * Z * dec) := Eval cbv in @hs2p_reg2c_IJn DArith.
Definition fhsa : gtab float := Eval vm_compute in tfl thsa.
Definition fhsb : gtab float := Eval vm_compute in tfl thsb.
Definition fhsc : gtab float := Eval vm_compute in tfl thsc.
Definition ch7 : list (Z*Z) := [(1,1);(2,1);(2,2);(4,1);(3,3);(6,1)]%Z.
Definition chsb : list (Z*Z) := [(1,1);(2,1);(2,2);(4,1);(3,3);(6,1);(4,4);(6,6);(12,2)]%Z.
Definition chsc : list (Z*Z) := [(1,1);(2,1);(2,2);(4,1);(3,3);(5,5);(6,6);(10,6)]%Z.
Definition cssa : list (Z*Z) := [(1,1);(2,1);(3,2);(3,3);(5,5);(10,6);(10,10);(20,2)]%Z.
Definition cssb : list (Z*Z) := [(1,1);(2,1);(2,2);(4,1);(3,3);(6,1);(4,4);(5,5);(6,6);(7,7);(8,8);(10,8)]%Z.
Definition cssc : list (Z*Z) := [(1,1);(2,1);(2,2);(4,1);(3,3);(6,1);(4,4);(5,5);(7,7);(8,8);(10,8)]%Z.
(* h and s are the enclosures of h / (540 R) and of s / R, iq of 1/q; pi is proportional to the
   fourth root of the pressure, the gap is 2 (pi/q)^2 - 1 or 10 (pi/q)^2 - 1 *)
Definition sqgap (c : float) (k : nat) (iq pi : tm) : tm :=
  let r := tmul k pi iq in tlin k [(c, tmul k r r); ((-1)%float, one)].
Definition gap_hsa (k : nat) (iq h s : tm) : tm :=
  sqgap 2 k iq (psum k (bp k ch7 (tlin k [(0x1.e61b05b9bac00p-5%float, h); ((-0.5)%float, one)]))
                       (bp k cssa (tlin k [(0x1.3b1183b60285fp-5%float, s); ((-1.2)%float, one)])) fhsa).
Definition gap_hsb (k : nat) (iq h s : tm) : tm :=
  sqgap 10 k iq (psum k (bp k chsb (tlin k [(0x1.f1f637d0fdbe7p-5%float, h); ((-0.6)%float, one)]))
                       (bp k cssb (tlin k [(0x1.de95be588573ep-5%float, s); ((-1.01)%float, one)])) fhsb).
Definition gap_hsc (k : nat) (iq h s : tm) : tm :=
  sqgap 10 k iq (psum k (bp k chsc (tlin k [(0x1.23a9d03c3cd9ap-4%float, h); ((-0.7)%float, one)]))
                       (bp k cssc (tlin k [(0x1.4068974c9ec4fp-4%float, s); ((-1.1)%float, one)])) fhsc).
(* h - h2ab(s) *)
Definition tsab (k : nat) (h s : tm) : tm :=
  let z := tlin k [(kS, s)] in
  let a := tlin k [(27.6349063799944%float, z); ((-421.073558227969)%float, one)] in
  let b := tlin k [(1%float, tmul k a z); (2575.60716905876%float, one)] in
  tlin k [(kH, h); ((-1)%float, tmul k b z); (3498.98083432139%float, one)].
Definition test5 (tol : float) (l : list tm) : bool :=
  match l with
  | [sel; sd; ga; gb; gc] =>
     (if lpos sel then true else absle ga tol) &&
     (if lneg sel then true else (if lneg sd then true else absle gb tol) && (if lpos sd then true else absle gc tol))
  | _ => false
  end.
Definition pick5 (l : list tm) : list tm :=
  match l with
  | [sel; sd; ga; gb; gc] =>
     (if lpos sel then [] else [ga]) ++ (if lneg sel then [] else (if lneg sd then [] else [gb]) ++ (if lpos sd then [] else [gc]))
  | _ => []
  end.
Definition lfhs (tol : float) (k' n k : nat) (x0 x1 y0 y1 : float) : bool :=
  if boxnn x0 x1 y0 y1 then
    let Q := varu x0 x1 in let Y := varv y0 y1 in
    let Q2 := tmul k Q Q in
    let X := tmul k Q2 Q2 in
    let px := px2 k X in let py := py2 k Y in let pi := pyi k Y in
    let h := hh k px py pi in
    let s := ss k (tlin k [(4%float, tln k Q)]) Y px py pi in
    let sel := tsab k h s in
    let sd := tlin k [(kS, s); ((-5.85)%float, one)] in
    let iq := tinv k Q in
    let ga := if lpos sel then tbad else gap_hsa k iq h s in
    let gb := if lneg sel then tbad else if lneg sd then tbad else gap_hsb k iq h s in
    let gc := if lneg sel then tbad else if lpos sd then tbad else gap_hsc k iq h s in
    inner k' (test5 tol) pick5 oq n x0 x1 y0 y1 [sel; sd; ga; gb; gc]
  else false.
(* the fourth roots of 4 and 100, rounded up *)
Definition am1 := 0x1.6a0ap0%float. Definition am2 := 0x1.94c6p1%float.
Definition tolhs : float := 0x1p-14%float.
