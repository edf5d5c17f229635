(* Enclosures for the region map of hs in region 2. *)
From Coq Require Import ZArith Reals List Bool Floats.
From Verif Require Import Num RealInst FloatInst FloatErr FloatUp RSums Taylor TaylorSum TaylorSub Reg2 Reg2Back Boundaries Enc1 Enc2 Enc2hs.
Import ListNotations.
Open Scope R_scope.

(* ---- the boundary equations: bounds on one line ---- *)
Definition tab_ab : list (Z * Z * dec) := Eval cbv in @hs_region_h2ab_s_IJn DArith.
Definition tab_cb : list (Z * Z * dec) := Eval cbv in @hs_region_h2c3b_s_IJn DArith.
Definition tab_th : list (Z * Z * dec) := Eval cbv in @hs_region_t_hs_IJn DArith.
Definition fab : gtab float := Eval vm_compute in tfl tab_ab.
Definition fcb : gtab float := Eval vm_compute in tfl tab_cb.
Definition fth : gtab float := Eval vm_compute in tfl tab_th.
Definition c36 : list (Z*Z) := [(1,1);(2,2);(4,1);(5,2);(4,4);(8,2);(8,4);(7,7);(10,8);(10,10);(20,2);(12,12);(20,8);(20,12);(32,4)]%Z.
Definition c37 : list (Z*Z) := [(1,1);(2,1);(2,2);(4,1);(3,3);(4,3);(4,4);(6,6);(8,8);(16,4);(16,6);(12,12);(16,16);(32,4)]%Z.
Definition cn12 : list (Z*Z) := [(1,1);(2,1);(2,2);(3,2);(3,3);(4,3);(4,4);(5,5);(6,6);(7,7);(-1,-1);(-2,-1);(-2,-2);(-3,-2);(-3,-3);(-4,-4);(-5,-5);(-6,-6)]%Z.
Definition c10 : list (Z*Z) := [(1,1);(2,1);(3,1);(4,1);(5,1);(6,1);(7,1);(8,1);(9,1)]%Z.
Definition c6 : list (Z*Z) := [(1,1);(2,1);(3,1);(4,1);(5,1)]%Z.
Definition c4 : list (Z*Z) := [(1,1);(2,1);(3,1)]%Z.
(* polynomials in (s - 7.5)/1.66, (s - 5.45)/0.41 and (s - 5.57)/0.48: above h2ab(s) and h2c3b(s), below
   the enthalpy at 100 MPa and the temperature given by T(p,s) less 0.019 K *)
Definition tUab : list (Z * Z * dec) := [(0%Z, 0%Z, (2656.7852)%dec); (0%Z, 1%Z, (-209.3857)%dec); (0%Z, 2%Z, (56.4629)%dec); (0%Z, 3%Z, (22.2357)%dec); (0%Z, 4%Z, (-57.4822)%dec);
  (0%Z, 5%Z, (47.2425)%dec); (0%Z, 6%Z, (-21.1603)%dec); (0%Z, 7%Z, (14.6334)%dec); (0%Z, 8%Z, (-4.3976)%dec); (0%Z, 9%Z, (-12.9121)%dec); (0%Z, 10%Z, (8.6136)%dec)].
Definition tUcb : list (Z * Z * dec) := [(0%Z, 0%Z, (2669.1763)%dec); (0%Z, 1%Z, (157.5134)%dec); (0%Z, 2%Z, (-43.6351)%dec); (0%Z, 3%Z, (-4.8323)%dec); (0%Z, 4%Z, (1.946)%dec);
  (0%Z, 5%Z, (0.4137)%dec); (0%Z, 6%Z, (-0.3993)%dec)].
Definition tLtop : list (Z * Z * dec) := [(0%Z, 0%Z, (3240.0883)%dec); (0%Z, 1%Z, (456.833)%dec); (0%Z, 2%Z, (25.3521)%dec); (0%Z, 3%Z, (2.8651)%dec); (0%Z, 4%Z, (0.0741)%dec)].
Definition fUab : gtab float := Eval vm_compute in tfl tUab.
Definition fUcb : gtab float := Eval vm_compute in tfl tUcb.
Definition fLtop : gtab float := Eval vm_compute in tfl tLtop.
(* S is the enclosure of s *)
Definition sh1 (k : nat) (f g : float) (t : tm) : tm := tlin k [(f, t); (g, one)].
Definition Uab (k : nat) (z : tm) : tm := psum k [] (bp k c10 z) fUab.
Definition Ucb (k : nat) (z : tm) : tm := psum k [] (bp k c6 z) fUcb.
Definition Ltop (k : nat) (z : tm) : tm := psum k [] (bp k c4 z) fLtop.
Definition zab (k : nat) (S : tm) : tm := sh1 k 0x1.346f0940c565dp-1 (-0x1.212818acb90f7p+2) S.
Definition zcb (k : nat) (S : tm) : tm := sh1 k 0x1.3831f3831f383p+1 (-0x1.a95da895da897p+3) S.
Definition ztop (k : nat) (S : tm) : tm := sh1 k 0x1.0aaaaaaaaaaabp+1 (-0x1.7355555555556p+3) S.
(* ln(U(s)/2800) - ln(h2ab(s)/2800) *)
Definition gap_ab (k : nat) (S : tm) : tm :=
  tsub (tln k (tlin k [(0x1.767dce434a9b1p-12%float, Uab k (zab k S))]))
       (psum k (bp k c36 (sh1 k 1 (-0.513)%float (tinv k (tlin k [(0x1.89171813a78e0p-3%float, S)]))))
               (bp k c36 (sh1 k 0x1.bd37a6f4de9bep-4 (-0.524)%float S)) fab).
(* U(s) - h2c3b(s) *)
Definition gap_cb (k : nat) (S : tm) : tm :=
  let r := psum k (bp k c37 (sh1 k 0x1.5b1e5f75270d0p-3 (-1.02)%float S)) (bp k c37 (sh1 k 0x1.5b1e5f75270d0p-3 (-0.726)%float S)) fcb in
  let r2 := tmul k r r in
  tlin k [(1%float, Ucb k (zcb k S)); ((-2800)%float, tmul k r2 r2)].
(* T is the enclosure of T(100,s) *)
Definition gap_top (k : nat) (S T : tm) : tm :=
  let Y := sh1 k 540 (-0.5) (tinv k (sh1 k 1 (-0.019)%float T)) in
  if lpos Y then tlin k [(kH, hh k (px2 k (cst 100%float)) (py2 k Y) (pyi k Y)); ((-1)%float, Ltop k (ztop k S))] else tbad.
Definition top_b (k : nat) (S : tm) : tm := psum k (bpi k cpb (cst 100%float)) (bp k csb (sh1 k (-0x1.45fd751022f23p+0) 10 S)) fpsb.
Definition top_c (k : nat) (S : tm) : tm := psum k (bpi k cpb (cst 100%float)) (bp k csc (sh1 k (-0x1.5e12d102ea13ap-2) 2 S)) fpsc.
Section Line.
Variable leaf : float -> float -> bool.
Fixpoint line (n : nat) (a b : float) : bool :=
  if between a b then
    if leaf a b then true else
    match n with O => false | S n' => let m := vmid a b in if line n' a m then line n' m b else false end
  else false.
End Line.
Definition l_ab (k : nat) (a b : float) : bool := let S := varu a b in lpos S && lpos (Uab k (zab k S)) && lpos (gap_ab k S).
Definition l_cb (k : nat) (a b : float) : bool := lpos (gap_cb k (varu a b)).
Definition l_tb (k : nat) (a b : float) : bool := let S := varu a b in lpos (gap_top k S (top_b k S)).
Definition l_tc (k : nat) (a b : float) : bool := let S := varu a b in lpos (gap_top k S (top_c k S)).
(* bounds for the entropies: around 5.85, 9.155759395, 6.0404837, 5.260578707, 5.0906, 5.0491; enthalpies around 2812.942, 2563.61 *)
Definition f585l := 0x1.76666p+2%float. Definition f585h := 0x1.76668p+2%float.
Definition f915 := 0x1.24fcp+3%float.
Definition f604 := 0x1.82976p+2%float.
Definition f526l := 0x1.50ad4p+2%float. Definition f526h := 0x1.50ad6p+2%float.
Definition f509 := 0x1.45ccp+2%float.
Definition f504 := 0x1.43248p+2%float.
Definition f2812l := 0x1.5f9ep+11%float. Definition f2812h := 0x1.5f9e8p+11%float.
Definition f2563 := 0x1.4073ap+11%float.

Definition f520 := 520%float. Definition f552 := 552%float. Definition f617 := 617%float. Definition f52 := 0x1.4ccccp+2%float.
Definition gtc (c : float) (t : tm) : bool := lpos (tsub t (cst c)).
Definition ltc (c : float) (t : tm) : bool := lneg (tsub t (cst c)).
(* h and s of a state given by enclosures of p, ln p and y = 540/T - 1/2 *)
Definition hE (k : nat) (X Y : tm) : tm := tlin k [(kH, hh k (px2 k X) (py2 k Y) (pyi k Y))].
Definition sE (k : nat) (X L Y : tm) : tm := tlin k [(kS, ss k L Y (px2 k X) (py2 k Y) (pyi k Y))].

(* a polynomial in (h - 2688)/125.5 and (s - 5.155)/0.107 below t_hs(h,s) *)
Definition tTL : list (Z * Z * dec) := [(0%Z, 0%Z, (756.839234)%dec); (0%Z, 1%Z, (-52.875727)%dec); (0%Z, 2%Z, (-2.832732)%dec);
  (0%Z, 3%Z, (1.354417)%dec); (0%Z, 4%Z, (0.318367)%dec); (0%Z, 5%Z, (0.176679)%dec); (0%Z, 6%Z, (-0.218522)%dec); (0%Z, 7%Z, (-0.112069)%dec);
  (0%Z, 8%Z, (0.073989)%dec); (1%Z, 0%Z, (97.834779)%dec); (1%Z, 1%Z, (11.480356)%dec); (1%Z, 2%Z, (-4.608941)%dec); (1%Z, 3%Z, (-1.617764)%dec);
  (1%Z, 4%Z, (-0.05637)%dec); (1%Z, 5%Z, (0.708698)%dec); (1%Z, 6%Z, (0.225485)%dec); (1%Z, 7%Z, (-0.204321)%dec); (2%Z, 0%Z, (-10.629064)%dec);
  (2%Z, 1%Z, (4.450475)%dec); (2%Z, 2%Z, (3.828124)%dec); (2%Z, 3%Z, (-0.164088)%dec); (2%Z, 4%Z, (-1.795757)%dec); (2%Z, 5%Z, (-0.268943)%dec);
  (2%Z, 6%Z, (0.462835)%dec); (3%Z, 0%Z, (-1.046121)%dec); (3%Z, 1%Z, (-3.949012)%dec); (3%Z, 2%Z, (-0.231295)%dec); (3%Z, 3%Z, (3.056775)%dec);
  (3%Z, 4%Z, (0.283336)%dec); (3%Z, 5%Z, (-0.936687)%dec); (4%Z, 0%Z, (1.590799)%dec); (4%Z, 1%Z, (0.517168)%dec); (4%Z, 2%Z, (-3.094421)%dec);
  (4%Z, 3%Z, (-0.421052)%dec); (4%Z, 4%Z, (1.491975)%dec); (5%Z, 0%Z, (-0.043066)%dec); (5%Z, 1%Z, (1.77723)%dec); (5%Z, 2%Z, (0.452382)%dec);
  (5%Z, 3%Z, (-1.636551)%dec); (6%Z, 0%Z, (-0.629537)%dec); (6%Z, 1%Z, (-0.128309)%dec); (6%Z, 2%Z, (1.17086)%dec); (7%Z, 0%Z, (-0.12569)%dec);
  (7%Z, 1%Z, (-0.576533)%dec); (8%Z, 0%Z, (0.227988)%dec)].
Definition fTL : gtab float := Eval vm_compute in tfl tTL.
Definition c8 : list (Z*Z) := [(1,1);(2,1);(3,1);(4,1);(5,1);(6,1);(7,1)]%Z.
Definition uH (k : nat) (H : tm) : tm := sh1 k 0x1.05197f7d73404p-7 (-0x1.56b17754a7445p+4) H.
Definition uS (k : nat) (S : tm) : tm := sh1 k 0x1.2b10bf66e0e5bp+3 (-0x1.816ba9de81324p+5) S.
Definition tTLe (k : nat) (H S : tm) : tm := psum k (bp k c8 (uH k H)) (bp k c8 (uS k S)) fTL.
(* t_hs(h,s) less that polynomial *)
Definition gap_th (k : nat) (H S : tm) : tm :=
  let nu := sh1 k 0x1.5d867c3ece2a5p-12 (-0.727)%float H in
  let sg := sh1 k 0x1.826a439f656f2p-3 (-0.864)%float S in
  tsub (tlin k [(900%float, psum k (bpi k cn12 nu) (bpi k cn12 sg) fth)]) (tTLe k H S).
Definition lfT (k : nat) (x0 x1 y0 y1 : float) : bool := if boxok x0 x1 y0 y1 then lpos (gap_th k (varu x0 x1) (varv y0 y1)) else false.
Definition noout (x0 x1 y0 y1 : float) : bool := false.
(* a polynomial below the temperature where the boundary of regions 2 and 3 is decided by t_hs *)
Definition tTau : list (Z * Z * dec) := [(0%Z, 0%Z, (745.0)%dec); (0%Z, 1%Z, (-49.7)%dec); (0%Z, 2%Z, (-1.66)%dec); (1%Z, 0%Z, (94.8)%dec); (1%Z, 1%Z, (8.95)%dec); (2%Z, 0%Z, (-8.48)%dec)].
Definition fTau : gtab float := Eval vm_compute in tfl tTau.
Definition fTLx : gtab float := Eval vm_compute in tfl (dxD tTL).
Definition fTLy : gtab float := Eval vm_compute in tfl (dyD tTL).
Definition tTaue (k : nat) (H S : tm) : tm := psum k (bp k c8 (uH k H)) (bp k c8 (uS k S)) fTau.
(* the derivative of the first polynomial in s if dh = tau ds *)
Definition slopeE (k : nat) (H S : tm) : tm :=
  let a := bp k c8 (uH k H) in let b := bp k c8 (uS k S) in
  tlin k [(0x1.05197f7d73404p-7%float, tmul k (psum k a b fTLx) (psum k a b fTau)); (0x1.2b10bf66e0e5bp+3%float, psum k a b fTLy)].
Definition lfSl (k : nat) (x0 x1 y0 y1 : float) : bool := if boxok x0 x1 y0 y1 then let H := varu x0 x1 in let S := varv y0 y1 in lpos (slopeE k H S) && lpos (psum k (bp k c8 (uH k H)) (bp k c8 (uS k S)) fTLx) && gtc 580 (tTLe k H S) else false.
(* boxes are split in both directions *)
Definition cut0 (y : float) : float := 0x1p40%float.

(* ---- the line 0.1 K above saturation: y = 540/T - 1/2, beta the fourth root of the saturation
   pressure at T - 0.1 K, guessed by polynomials in y ---- *)
Definition guess : list (float * float * float * list float) := ([(0x1.775c000000000p-2, 0x1.b02c000000000p-2, 0x1.93c4000000000p-2, [0x1.e5a81003463c7p+0; (-0x1.077c0bb048067p+2); 0x1.572bd515f3d8ep+2; (-0x1.8352a7349921fp+3); 0x1.e5e895fd473b6p+5; (-0x1.82d35c9185059p+8); 0x1.55423b0a4469ep+11; (-0x1.b0c1bf5f4713cp+14); 0x1.16c9a314f7eaep+18]);
  (0x1.b02c000000000p-2, 0x1.e8fc000000000p-2, 0x1.cc94000000000p-2, [0x1.aefd0e94fe079p+0; (-0x1.cd6cc46bcd72cp+1); 0x1.0325686bdc743p+2; (-0x1.50d6b4c068209p+2); 0x1.d4f79279bdfdep+3; (-0x1.e56bb1e73567fp+5); 0x1.16cc6df0c5405p+8; (-0x1.5a1ab003141f0p+10); 0x1.a6647f2cf41cfp+12]);
  (0x1.e8fc000000000p-2, 0x1.10e6000000000p-1, 0x1.02b2000000000p-1, [0x1.7ec71068e1716p+0; (-0x1.9922c2602b7e6p+1); 0x1.af3c483e10b1ep+1; (-0x1.9dc69fb07a93fp+1); 0x1.66b485faa9a5bp+2; (-0x1.02504dfe4644ep+4); 0x1.bd4a7e4a05391p+5; (-0x1.a017a3f4f54ddp+7); 0x1.82c4125150778p+9]);
  (0x1.10e6000000000p-1, 0x1.2d4e000000000p-1, 0x1.1f1a000000000p-1, [0x1.53e7836370d27p+0; (-0x1.6cb2199fffa38p+1); 0x1.74df972e28b4dp+1; (-0x1.2c4e36f0cdafep+1); 0x1.6c0cf5fecd0e3p+1; (-0x1.78cf00d1d1edep+2); 0x1.f3f70186702e2p+3; (-0x1.750b4cb44111fp+5); 0x1.1b084b9aca1c5p+7]);
  (0x1.2d4e000000000p-1, 0x1.49b6000000000p-1, 0x1.3b82000000000p-1, [0x1.2da2db78bfbc2p+0; (-0x1.45e03580c1806p+1); 0x1.488eb91d680aap+1; (-0x1.dad33340fd8d2p+0); 0x1.ba73d880ce916p+0; (-0x1.59786645c5363p+1); 0x1.64225b70c75a1p+2; (-0x1.b066785397670p+3); 0x1.1309e6d5f1361p+5]);
  (0x1.49b6000000000p-1, 0x1.661e000000000p-1, 0x1.57ea000000000p-1, [0x1.0b6bfc9574db6p+0; (-0x1.23795f34ac6b4p+1); 0x1.249f7f3802e5cp+1; (-0x1.89f5e80a2ee42p+0); 0x1.2cb0c8656c869p+0; (-0x1.773a0b123b985p+0); 0x1.3221ec19b2ccfp+1; (-0x1.2e788ecddcf68p+2); 0x1.4abdf51acb4b9p+3]);
  (0x1.661e000000000p-1, 0x1.8286000000000p-1, 0x1.7452000000000p-1, [0x1.d9a1ded83b569p-1; (-0x1.04ba79d093ab3p+1); 0x1.0654c792c5413p+1; (-0x1.5105ad85be75bp+0); 0x1.b638b954d503ap-1; (-0x1.cb1794a827e36p-1); 0x1.3414d6709934dp+0; (-0x1.ec52c9ef37552p+0); 0x1.cd2b730f80570p+1]);
  (0x1.8286000000000p-1, 0x1.9eee000000000p-1, 0x1.90ba000000000p-1, [0x1.a2e3a50ee0b45p-1; (-0x1.d23639e72ce91p+0); 0x1.d842da3cb03b1p+0; (-0x1.268c84b22e51ep+0); 0x1.4e7adf92aad04p-1; (-0x1.2f3e9da0ba0b2p-1); 0x1.619a21d3beabfp-1; (-0x1.c8500cef0f252p-1); 0x1.5e8c241dfc304p+0]);
  (0x1.9eee000000000p-1, 0x1.bb56000000000p-1, 0x1.ad22000000000p-1, [0x1.71f79ea3cbe00p-1; (-0x1.a06bd5ba8e6e2p+0); 0x1.aa16972653fcdp+0; (-0x1.05905444e1179p+0); 0x1.085f9ed061120p-1; (-0x1.a291d4116a1c4p-2); 0x1.c1634ef33cbe3p-2; (-0x1.de54902af0563p-2); 0x1.516f2dfbe707fp-1]);
  (0x1.bb56000000000p-1, 0x1.d7be000000000p-1, 0x1.c98a000000000p-1, [0x1.464bea6bc7bd1p-1; (-0x1.7378ac2e364b2p+0); 0x1.80d4889bc07eap+0; (-0x1.d633ce7fbfa39p-1); 0x1.aee37351cadf5p-2; (-0x1.26da1fbca85c3p-2); 0x1.3243537c03a84p-2; (-0x1.1c332a66bf1fep-2); 0x1.29b4f5f4d296cp-2]);
  (0x1.d7be000000000p-1, 0x1.f426000000000p-1, 0x1.e5f2000000000p-1, [0x1.1f5e3fa1e9f5ep-1; (-0x1.4adede48f3bd4p+0); 0x1.5b92b42429626p+0; (-0x1.aa72c2e1ebb20p-1); 0x1.69b5e4a5d141fp-2; (-0x1.a1b747d4901a0p-3); 0x1.b10207991e571p-3; (-0x1.79a3ac00a33cep-3); 0x1.0f0158ba0d02dp-3]);
  (0x1.f426000000000p-1, 0x1.0847000000000p+0, 0x1.012d000000000p+0, [0x1.f9720795cbaf2p-2; (-0x1.26367688f0c52p+0); 0x1.39abea33ba5fcp+0; (-0x1.852fae7ce6fccp-1); 0x1.38ba67f000172p-2; (-0x1.277e7108ce511p-3); 0x1.33eda965a3cbap-3; (-0x1.143a1567affa5p-3); 0x1.68d39215a4ae5p-4]);
  (0x1.0847000000000p+0, 0x1.167b000000000p+0, 0x1.0f61000000000p+0, [0x1.bbe27970e4e86p-2; (-0x1.0526ff3fab4fap+0); 0x1.1aab3a8383960p+0; (-0x1.648496164845fp-1); 0x1.16155daae4e1fp-2; (-0x1.a278b6b49bdafp-4); 0x1.ace7a9cb9f1cfp-4; (-0x1.a9c6d83baae54p-4); 0x1.ac6e2b74eac59p-5]);
  (0x1.167b000000000p+0, 0x1.24af000000000p+0, 0x1.1d95000000000p+0, [0x1.854a3891ccdfep-2; (-0x1.cec5f5a73c5aep-1); 0x1.fc7bc82021ab7p-1; (-0x1.471adbde6f441p-1); 0x1.fad7409a14b2ap-3; (-0x1.2cc64e7273fd2p-4); 0x1.1c96dbbaddb83p-4; (-0x1.4865f7339bf5ap-4); 0x1.5b695b862f60ap-6]);
  (0x1.24af000000000p+0, 0x1.32e3000000000p+0, 0x1.2bc9000000000p+0, [0x1.54f5f1b1a96c8p-2; (-0x1.9949662d020cbp-1); 0x1.c851e14547365p-1; (-0x1.2c0898d264934p-1); 0x1.d6c6bb148c198p-3; (-0x1.c2c9a7229cb4ap-5); 0x1.5b26798335adap-5; (-0x1.ede104400a99dp-5); 0x1.8f8ee60f5a2e8p-5]);
  (0x1.32e3000000000p+0, 0x1.4118000000000p+0, 0x1.39fd800000000p+0, [0x1.2a3fb950f47f0p-2; (-0x1.69567e60e829ap-1); 0x1.9880e03ba5edcp-1; (-0x1.12b6bc1cabb09p-1); 0x1.bad61ad27d435p-3; (-0x1.6becd0ae924d2p-5); 0x1.6ee7d610ed6dcp-6; (-0x1.62328c87e42e9p-5); 0x1.9d95e62c51f12p-5]);
  (0x1.4118000000000p+0, 0x1.4f4c000000000p+0, 0x1.4832000000000p+0, [0x1.04928a5fb49f1p-2; (-0x1.3e7759ff0d271p-1); 0x1.6cc7df4255434p-1; (-0x1.f59e6216d29a6p-2); 0x1.a33c11a5e91e4p-3; (-0x1.42dd3aa70c298p-5); 0x1.1b8f3c8a312ccp-7; (-0x1.d6e0ebf11a983p-6); 0x1.d70f40d18e5f1p-6]);
  (0x1.4f4c000000000p+0, 0x1.5d80000000000p+0, 0x1.5666000000000p+0, [0x1.c6cb2864ee78cp-3; (-0x1.183c208cb8b9bp-1); 0x1.44efe1a31d46cp-1; (-0x1.c851ffc835acep-2); 0x1.8d5b4d11d7df3p-3; (-0x1.37e7b40203a35p-5); 0x1.7c73666777c7ap-13; (-0x1.082642e792d59p-6); 0x1.5ec6f05b546e8p-6]);
  (0x1.5d80000000000p+0, 0x1.6bb4000000000p+0, 0x1.649a000000000p+0, [0x1.8c7392aeac0d9p-3; (-0x1.ec703e52643afp-2); 0x1.20c341dc9c1dbp-1; (-0x1.9d6edbc908caap-2); 0x1.779448ba90c14p-3; (-0x1.3e0aba686a222p-5); (-0x1.0961418e3baa6p-8); (-0x1.d0a0b44db7dd2p-8); 0x1.0ef6f747ed2c3p-9]);
  (0x1.6bb4000000000p+0, 0x1.79e8400000000p+0, 0x1.72ce200000000p+0, [0x1.5939c153cf944p-3; (-0x1.b00b6a913aeddp-2); 0x1.000e15b5ab05cp-1; (-0x1.74ff125da7ca7p-2); 0x1.61147683f240ap-3; (-0x1.4b4bacafca7e3p-5); (-0x1.5501af00154dfp-8); 0x1.3320df40443bap-11; 0x1.7d025eb6874ddp-8])])%float.

Definition hor (k : nat) (D : tm) (cs : list float) : tm := fold_right (fun c a => tadd (cst c) (tmul k D a)) (cst 0%float) cs.
Definition tq (k : nat) (a b c : float) (x : tm) : tm := tlin k [(a, tmul k x x); (b, x); (c, one)].
Definition eA (k : nat) (x : tm) : tm := tq k 1 1167.0521452767 (-724213.16703206) x.
Definition eB (k : nat) (x : tm) : tm := tq k (-17.073846940092) 12020.824702470 (-3232555.0322333) x.
Definition eC (k : nat) (x : tm) : tm := tq k 14.915108613530 (-4823.2657361591) 405113.40542057 x.
Definition ePol (k : nat) (x b : tm) : tm := tadd (tadd (tmul k (eA k x) (tmul k b b)) (tmul k (eB k x) b)) (eC k x).
(* the boundary pressure at the temperature of the polynomial, less 1.000125 p *)
Definition gap_sp (k : nat) (X H S : tm) : tm := tlin k [(1%float, tq k 0.0010192970039326 (-1.1671859879975) 348.05185628969 (tTLe k H S)); ((-1.000125)%float, X)].
Definition rb : float := 0x1p-28%float.
Definition satok (k : nat) (x B : tm) : bool :=
  let b1 := tadd B (cst rb) in let b2 := tadd B (cst (- rb)%float) in
  lpos b2 && lneg (ePol k x b1) && lpos (ePol k x b2) && lpos (tadd (tlin k [(2%float, eC k x)]) (tmul k b2 (eB k x))).
Definition G0 : float := (0x1.8400000000000p-9)%float.
Definition lfA (k : nat) (c : float) (cs : list float) (y0 y1 : float) : bool :=
  if bpos y0 y1 then
    let Y := varu y0 y1 in
    let T := T2 k Y in
    let Ts := tlin k [(1%float, T); ((-0.1)%float, one)] in
    let x := tlin k [(1%float, Ts); ((-0.23855557567849)%float, tinv k (tlin k [(1%float, Ts); ((-650.17534844798)%float, one)]))] in
    let B := hor k (tadd Y (cst (- c)%float)) cs in
    if satok k x B then
      let Q := tadd B (TM [] rb) in
      let Q2 := tmul k Q Q in
      let X := tmul k Q2 Q2 in
      let H := hE k X Y in
      let S := sE k X (tlin k [(4%float, tln k Q)]) Y in
      (if ltc f585l S then true else if gtc f915 S then true else lpos (tsub (tsub H (Uab k (zab k S))) (cst 0x1p-4%float))) &&
      (if gtc f585h S then true else gtc f52 S && gtc f552 T && lpos (tsub (tsub H (Ucb k (zcb k S))) (cst 0x1p-4%float))) &&
      (if gtc f526h S then true else gtc f617 T && gtc f2563 H && lpos (gap_sp k X H S)) &&
      (if gtc f604 S then true else gtc f520 T) &&
      lpos (tlin k [(1%float, H); ((-273.15)%float, S); (G0, one)])
    else false
  else false.
(* ---- the line 0.1 percent below the pressure of the boundary with region 3 ---- *)
Definition f530 := 0x1.53p+2%float.
Definition lfB (k : nat) (t0 t1 : float) : bool :=
  if bpos t0 t1 then
    let T := varu t0 t1 in
    let Y := tlin k [(540%float, tinv k T); ((-0.5)%float, one)] in
    let X := tq k (0x1.0aef874abad45p-10) (-0x1.2a8048dd2b671p+0) (0x1.5bb4435082324p+8) T in
    let H := hE k X Y in
    let S := sE k X (tln k X) Y in
    gtc f504 S && ltc f530 S && gtc f2563 H && lpos (tsub (tsub H (Ucb k (zcb k S))) (cst 0x1p-4%float)) &&
    (if gtc f526h S then true else if gtc f2812h H then true else lpos (gap_sp k X H S))
  else false.

(* ---- the interior: boxes in q = p^(1/4) and y ---- *)
(* h - h2ab(s) of the subregions *)
Definition tsab' (k : nat) (H z : tm) : tm :=
  let a := tlin k [(27.6349063799944%float, z); ((-421.073558227969)%float, one)] in
  let b := tlin k [(1%float, tmul k a z); (2575.60716905876%float, one)] in
  tlin k [(1%float, H); ((-1)%float, tmul k b z); (3498.98083432139%float, one)].
Definition test_m (l : list tm) : bool :=
  match l with
  | [s; h; tp; se; gt] =>
     (if gtc f604 s then true else if ltc f526l s && ltc f2812l h then true else gtc f509 s && lpos tp) &&
     (if gtc f526h s then true else if gtc f2812h h then true else lpos se && lpos gt)
  | _ => false
  end.
Definition pick_m (l : list tm) : list tm :=
  match l with
  | [s; h; tp; se; gt] =>
     (if gtc f604 s then [] else if ltc f526l s && ltc f2812l h then [] else [tp]) ++
     (if gtc f526h s then [] else if gtc f2812h h then [] else [gt])
  | _ => []
  end.
Definition lfm (k' n k : nat) (x0 x1 y0 y1 : float) : bool :=
  if boxnn x0 x1 y0 y1 then
    let Q := varu x0 x1 in let Y := varv y0 y1 in
    let Q2 := tmul k Q Q in
    let X := tmul k Q2 Q2 in
    let H := hE k X Y in
    let S := sE k X (tlin k [(4%float, tln k Q)]) Y in
    let tp := if gtc f604 S then tbad else if ltc f526l S && ltc f2812l H then tbad else tsub (Ltop k (ztop k S)) H in
    let in3 := if gtc f526h S then false else if gtc f2812h H then false else true in
    let se := if in3 then tsab' k H S else tbad in
    let gt := if in3 then tsub (T2 k Y) (tTaue k H S) else tbad in
    inner k' test_m pick_m oq n x0 x1 y0 y1 [S; H; tp; se; gt]
  else false.
(* the fourth roots of 3.9 and of 99.8, rounded down and up *)
Definition am3 := 0x1.6p+0%float.
Definition am4 := 0x1.9492p1%float.
(* the temperature of the whole line of lfB *)
Definition f623 := 0x1.378cp+9%float. Definition f863 := 0x1.af94p+9%float.
Definition lineA (n k : nat) : bool := forallb (fun p : float * float * float * list float => let '(a, b, c, cs) := p in line (lfA k c cs) n a b) guess.
(* the enthalpy at 800 C and 1.000126 p, less that at 799 C and p; q = p^(1/4) *)
Definition y800 (k : nat) : tm := tlin k [(0x1.01a25246a27a0p-1%float, one); ((-0.5)%float, one)].
Definition y799 (k : nat) : tm := tlin k [(0x1.01dfd65baa2f6p-1%float, one); ((-0.5)%float, one)].
Definition lfE (k : nat) (a b : float) : bool :=
  if bpos a b then
    let Q := varu a b in let Q2 := tmul k Q Q in let X := tmul k Q2 Q2 in
    lpos (tsub (hE k (tlin k [(1.000126%float, X)]) (y800 k)) (hE k X (y799 k)))
  else false.
