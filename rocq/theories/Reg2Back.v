(* Generated by tools/rs2v.py from src/r2/region2_T_ph.rs, src/r2/region2_T_ps.rs, src/r2/region2_p_hs.rs, src/r2/region2_pair_ext.rs, src/r2/region2.rs.
   Every definition cites the source lines it models; see tools/rs2v.py for the
   translation rules (mutable variables become let-rebinding, match on constants
   becomes an if-chain in source order, for loops over ranges become fold_left). *)
From Coq Require Import ZArith List Bool String.
From Verif Require Import Num Algo Constant R4Sat Transport Reg2 Boundaries.
Import ListNotations.
Open Scope num_scope.

Section Model.
Context {N : Arith}.

(* src/r2/region2_T_ph.rs:10-46  IJn *)
Definition ph2T_reg2a_IJn : list (Z * Z * num) :=
  [(0%Z, 0%Z, #0.10898952318288E+04);
     (0%Z, 1%Z, #0.84951654495535E+03);
     (0%Z, 2%Z, #(-0.10781748091826E+03));
     (0%Z, 3%Z, #0.33153654801263E+02);
     (0%Z, 7%Z, #(-0.74232016790248E+01));
     (0%Z, 20%Z, #0.11765048724356E+02);
     (1%Z, 0%Z, #0.18445749355790E+01);
     (1%Z, 1%Z, #(-0.41792700549624E+01));
     (1%Z, 2%Z, #0.62478196935812E+01);
     (1%Z, 3%Z, #(-0.17344563108114E+02));
     (1%Z, 7%Z, #(-0.20058176862096E+03));
     (1%Z, 9%Z, #0.27196065473796E+03);
     (1%Z, 11%Z, #(-0.45511318285818E+03));
     (1%Z, 18%Z, #0.30919688604755E+04);
     (1%Z, 44%Z, #0.25226640357872E+06);
     (2%Z, 0%Z, #(-0.61707422868339E-02));
     (2%Z, 2%Z, #(-0.31078046629583E+00));
     (2%Z, 7%Z, #0.11670873077107E+02);
     (2%Z, 36%Z, #0.12812798404046E+09);
     (2%Z, 38%Z, #(-0.98554909623276E+09));
     (2%Z, 40%Z, #0.28224546973002E+10);
     (2%Z, 42%Z, #(-0.35948971410703E+10));
     (2%Z, 44%Z, #0.17227349913197E+10);
     (3%Z, 24%Z, #(-0.13551334240775E+05));
     (3%Z, 44%Z, #0.12848734664650E+08);
     (4%Z, 12%Z, #0.13865724283226E+01);
     (4%Z, 32%Z, #0.23598832556514E+06);
     (4%Z, 44%Z, #(-0.13105236545054E+08));
     (5%Z, 32%Z, #0.73999835474766E+04);
     (5%Z, 36%Z, #(-0.55196697030060E+06));
     (5%Z, 42%Z, #0.37154085996233E+07);
     (6%Z, 34%Z, #0.19127729239660E+05);
     (6%Z, 44%Z, #(-0.41535164835634E+06));
     (7%Z, 28%Z, #(-0.62459855192507E+02))].

(* src/r2/region2_T_ph.rs:8-51 *)
Definition ph2T_reg2a (p : num) (h : num) : num :=
  let pi := p / #1.0 in
  let eta := (h / #2000.0) - #2.1 in
  #1.0 * (poly_powi pi eta ph2T_reg2a_IJn).

(* src/r2/region2_T_ph.rs:55-94  IJn *)
Definition ph2T_reg2b_IJn : list (Z * Z * num) :=
  [(0%Z, 0%Z, #1.4895041079516e3);
     (0%Z, 1%Z, #7.4307798314034e2);
     (0%Z, 2%Z, #(-9.7708318797837e1));
     (0%Z, 12%Z, #2.4742464705674);
     (0%Z, 18%Z, #(-6.3281320016026e-1));
     (0%Z, 24%Z, #1.1385952129658);
     (0%Z, 28%Z, #(-4.7811863648625e-1));
     (0%Z, 40%Z, #8.5208123431544e-3);
     (1%Z, 0%Z, #9.3747147377932e-1);
     (1%Z, 2%Z, #3.3593118604916);
     (1%Z, 6%Z, #3.3809355601454);
     (1%Z, 12%Z, #1.6844539671904e-1);
     (1%Z, 18%Z, #7.3875745236695e-1);
     (1%Z, 24%Z, #(-4.7128737436186e-1));
     (1%Z, 28%Z, #1.5020273139707e-1);
     (1%Z, 40%Z, #(-2.1764114219750e-3));
     (2%Z, 2%Z, #(-2.1810755324761e-2));
     (2%Z, 8%Z, #(-1.0829784403677e-1));
     (2%Z, 18%Z, #(-4.6333324635812e-2));
     (2%Z, 40%Z, #7.1280351959551e-5);
     (3%Z, 1%Z, #1.1032831789999e-4);
     (3%Z, 2%Z, #1.8955248387902e-4);
     (3%Z, 12%Z, #3.0891541160537e-3);
     (3%Z, 24%Z, #1.3555504554949e-3);
     (4%Z, 2%Z, #2.8640237477456e-7);
     (4%Z, 12%Z, #(-1.0779857357512e-5));
     (4%Z, 18%Z, #(-7.6462712454814e-5));
     (4%Z, 24%Z, #1.4052392818316e-5);
     (4%Z, 28%Z, #(-3.1083814331434e-5));
     (4%Z, 40%Z, #(-1.0302738212103e-6));
     (5%Z, 18%Z, #2.8217281635040e-7);
     (5%Z, 24%Z, #1.2704902271945e-6);
     (5%Z, 40%Z, #7.3803353468292e-8);
     (6%Z, 28%Z, #(-1.1030139238909e-8));
     (7%Z, 2%Z, #(-8.1456365207833e-14));
     (7%Z, 28%Z, #(-2.5180545682962e-11));
     (9%Z, 1%Z, #(-1.7565233969407e-18));
     (9%Z, 40%Z, #8.6934156344163e-15)].

(* src/r2/region2_T_ph.rs:53-100 *)
Definition ph2T_reg2b (p : num) (h : num) : num :=
  let pi := (p / #1.0) - #2.0 in
  let eta := (h / #2000.0) - #2.6 in
  let steps := [(0%nat, 24%nat); (24%nat, 38%nat)] in
  #1.0 * (poly_powi_steps pi eta ph2T_reg2b_IJn steps).

(* src/r2/region2_T_ph.rs:104-130  IJn *)
Definition ph2T_reg2c_IJn : list (Z * Z * num) :=
  [((-7)%Z, 0%Z, #(-3236839855524.2));
     ((-7)%Z, 4%Z, #7326335090218.1);
     ((-6)%Z, 0%Z, #358250899454.47);
     ((-6)%Z, 2%Z, #(-583401318515.9));
     ((-5)%Z, 0%Z, #(-10783068217.47));
     ((-5)%Z, 2%Z, #20825544563.171);
     ((-2)%Z, 0%Z, #610747.83564516);
     ((-2)%Z, 1%Z, #859777.2253558);
     ((-1)%Z, 0%Z, #(-25745.72360417));
     ((-1)%Z, 2%Z, #31081.088422714);
     (0%Z, 0%Z, #1208.2315865936);
     (0%Z, 1%Z, #482.19755109255);
     (1%Z, 4%Z, #3.7966001272486);
     (1%Z, 8%Z, #(-10.842984880077));
     (2%Z, 4%Z, #(-0.04536417267666));
     (6%Z, 0%Z, #1.4559115658698E-13);
     (6%Z, 1%Z, #1.126159740723E-12);
     (6%Z, 4%Z, #(-1.7804982240686E-11));
     (6%Z, 10%Z, #1.2324579690832E-07);
     (6%Z, 12%Z, #(-1.1606921130984E-06));
     (6%Z, 16%Z, #2.7846367088554E-05);
     (6%Z, 20%Z, #(-5.9270038474176E-04));
     (6%Z, 22%Z, #1.2918582991878E-03)].

(* src/r2/region2_T_ph.rs:102-135 *)
Definition ph2T_reg2c (p : num) (h : num) : num :=
  let pi := (p / #1.0) + #25.0 in
  let eta := (h / #2000.0) - #1.8 in
  #1.0 * (poly_powi pi eta ph2T_reg2c_IJn).

(* src/r2/region2_T_ph.rs:139-139  n *)
Definition enthalpy_2bc_n : list num :=
  [#0.12809002730136e-3; #0.26526571908428e4; #0.45257578905948e1].

(* src/r2/region2_T_ph.rs:138-141 *)
Definition enthalpy_2bc (p : num) : num :=
  (nth (1%nat) enthalpy_2bc_n (#0.0)) + (nsqrt ((p - (nth (2%nat) enthalpy_2bc_n (#0.0))) / (nth (0%nat) enthalpy_2bc_n (#0.0)))).

(* src/r2/region2_T_ph.rs:143-156 *)
Definition ph2T_reg2 (p : num) (h : num) : num :=
  let T := #0.0 in
  if p >? #4.0 then
    if h <? (enthalpy_2bc p) then
      ph2T_reg2c p h
    else ph2T_reg2b p h
  else ph2T_reg2a p h.

(* src/r2/region2_T_ps.rs:12-68  IJn *)
Definition ps2T_reg2a_IJn : list (num * Z * num) :=
  [(#(-1.5), (-24)%Z, #(-0.39235983861984E+06));
     (#(-1.5), (-23)%Z, #0.51526573827270E+06);
     (#(-1.5), (-19)%Z, #0.40482443161048E+05);
     (#(-1.5), (-13)%Z, #(-0.32193790923902E+03));
     (#(-1.5), (-11)%Z, #0.96961424218694E+02);
     (#(-1.5), (-10)%Z, #(-0.22867846371773E+02));
     (#(-1.25), (-19)%Z, #(-0.44942914124357E+06));
     (#(-1.25), (-15)%Z, #(-0.50118336020166E+04));
     (#(-1.25), (-6)%Z, #0.35684463560015E+00);
     (#(-1.0), (-26)%Z, #0.44235335848190E+05);
     (#(-1.0), (-21)%Z, #(-0.13673388811708E+05));
     (#(-1.0), (-17)%Z, #0.42163260207864E+06);
     (#(-1.0), (-16)%Z, #0.22516925837475E+05);
     (#(-1.0), (-9)%Z, #0.47442144865646E+03);
     (#(-1.0), (-8)%Z, #(-0.14931130797647E+03));
     (#(-0.75), (-15)%Z, #(-0.19781126320452E+06));
     (#(-0.75), (-14)%Z, #(-0.23554399470760E+05));
     (#(-0.5), (-26)%Z, #(-0.19070616302076E+05));
     (#(-0.5), (-13)%Z, #0.55375669883164E+05);
     (#(-0.5), (-9)%Z, #0.38293691437363E+04);
     (#(-0.5), (-7)%Z, #(-0.60391860580567E+03));
     (#(-0.25), (-27)%Z, #0.19363102620331E+04);
     (#(-0.25), (-25)%Z, #0.42660643698610E+04);
     (#(-0.25), (-11)%Z, #(-0.59780638872718E+04));
     (#(-0.25), (-6)%Z, #(-0.70401463926862E+03));
     (#0.25, 1%Z, #0.33836784107553E+03);
     (#0.25, 4%Z, #0.20862786635187E+02);
     (#0.25, 8%Z, #0.33834172656196E-01);
     (#0.25, 11%Z, #(-0.43124428414893E-04));
     (#0.5, 0%Z, #0.16653791356412E+03);
     (#0.5, 1%Z, #(-0.13986292055898E+03));
     (#0.5, 5%Z, #(-0.78849547999872E+00));
     (#0.5, 6%Z, #0.72132411753872E-01);
     (#0.5, 10%Z, #(-0.59754839398283E-02));
     (#0.5, 14%Z, #(-0.12141358953904E-04));
     (#0.5, 16%Z, #0.23227096733871E-06);
     (#0.75, 0%Z, #(-0.10538463566194E+02));
     (#0.75, 4%Z, #0.20718925496502E+01);
     (#0.75, 9%Z, #(-0.72193155260427E-01));
     (#0.75, 17%Z, #0.20749887081120E-06);
     (#1.0, 7%Z, #(-0.18340657911379E-01));
     (#1.0, 18%Z, #0.29036272348696E-06);
     (#1.25, 3%Z, #0.21037527893619E+00);
     (#1.25, 15%Z, #0.2568123972999E-03);
     (#1.5, 5%Z, #(-0.1279900293381E-01));
     (#1.5, 18%Z, #(-0.82198102652018E-05))].

(* src/r2/region2_T_ps.rs:10-77 *)
Definition ps2T_reg2a (p : num) (s : num) : num :=
  let pi := p / #1.0 in
  let sigma := (s / #2.0) - #2.0 in
  let theta := #0.0 in
  let theta := fold_left (fun theta k =>
      theta + (((snd k) * (powf pi (fst (fst k)))) * (powi sigma (snd (fst k)))))
    ps2T_reg2a_IJn theta in
  #1.0 * theta.

(* src/r2/region2_T_ps.rs:81-126  IJn *)
Definition ps2T_reg2b_IJn : list (Z * Z * num) :=
  [((-6)%Z, 0%Z, #0.31687665083497e6);
     ((-6)%Z, 11%Z, #0.20864175881858e2);
     ((-5)%Z, 0%Z, #(-0.39859399803599e6));
     ((-5)%Z, 11%Z, #(-0.21816058518877e2));
     ((-4)%Z, 0%Z, #0.22369785194242e6);
     ((-4)%Z, 1%Z, #(-0.27841703445817e4));
     ((-4)%Z, 11%Z, #0.99207436071480e1);
     ((-3)%Z, 0%Z, #(-0.75197512299157e5));
     ((-3)%Z, 1%Z, #0.29708605951158e4);
     ((-3)%Z, 11%Z, #(-0.34406878548526e1));
     ((-3)%Z, 12%Z, #0.38815564249115);
     ((-2)%Z, 0%Z, #0.17511295085750e5);
     ((-2)%Z, 1%Z, #(-0.14237112854449e4));
     ((-2)%Z, 6%Z, #0.10943803364167e1);
     ((-2)%Z, 10%Z, #0.89971619308495);
     ((-1)%Z, 0%Z, #(-0.33759740098958e4));
     ((-1)%Z, 1%Z, #0.47162885818355e3);
     ((-1)%Z, 5%Z, #(-0.19188241993679e1));
     ((-1)%Z, 8%Z, #0.41078580492196);
     ((-1)%Z, 9%Z, #(-0.33465378172097));
     (0%Z, 0%Z, #0.13870034777505e4);
     (0%Z, 1%Z, #(-0.40663326195838e3));
     (0%Z, 2%Z, #0.41727347159610e2);
     (0%Z, 4%Z, #0.21932549434532e1);
     (0%Z, 5%Z, #(-0.10320050009077e1));
     (0%Z, 6%Z, #0.35882943516703);
     (0%Z, 9%Z, #0.52511453726066e-2);
     (1%Z, 0%Z, #0.12838916450705e2);
     (1%Z, 1%Z, #(-0.28642437219381e1));
     (1%Z, 2%Z, #0.56912683664855);
     (1%Z, 3%Z, #(-0.99962954584931e-1));
     (1%Z, 7%Z, #(-0.32632037778459e-2));
     (1%Z, 8%Z, #0.23320922576723e-3);
     (2%Z, 0%Z, #(-0.15334809857450));
     (2%Z, 1%Z, #0.29072288239902e-1);
     (2%Z, 5%Z, #0.37534702741167e-3);
     (3%Z, 0%Z, #0.17296691702411e-2);
     (3%Z, 1%Z, #(-0.38556050844504e-3));
     (3%Z, 3%Z, #(-0.35017712292608e-4));
     (4%Z, 0%Z, #(-0.14566393631492e-4));
     (4%Z, 1%Z, #0.56420857267269e-5);
     (5%Z, 0%Z, #0.41286150074605e-7);
     (5%Z, 1%Z, #(-0.20684671118824e-7));
     (5%Z, 2%Z, #0.16409393674725e-8)].

(* src/r2/region2_T_ps.rs:79-132 *)
Definition ps2T_reg2b (p : num) (s : num) : num :=
  let pi := p / #1.0 in
  let sigma := #10.0 - (s / #0.7853) in
  let steps := [(0%nat, 22%nat); (22%nat, 44%nat)] in
  #1.0 * (poly_powi_steps pi sigma ps2T_reg2b_IJn steps).

(* src/r2/region2_T_ps.rs:136-167  IJn *)
Definition ps2T_reg2c_IJn : list (Z * Z * num) :=
  [((-2)%Z, 0%Z, #0.90968501005365e3);
     ((-2)%Z, 1%Z, #0.24045667088420e4);
     ((-1)%Z, 0%Z, #(-0.59162326387130e3));
     (0%Z, 0%Z, #0.54145404128074e3);
     (0%Z, 1%Z, #(-0.27098308411192e3));
     (0%Z, 2%Z, #0.97976525097926e3);
     (0%Z, 3%Z, #(-0.46966772959435e3));
     (1%Z, 0%Z, #0.14399274604723e2);
     (1%Z, 1%Z, #(-0.19104204230429e2));
     (1%Z, 3%Z, #0.53299167111971e1);
     (1%Z, 4%Z, #(-0.21252975375934e2));
     (2%Z, 0%Z, #(-0.31147334413760));
     (2%Z, 1%Z, #0.60334840894623);
     (2%Z, 2%Z, #(-0.42764839702509e-1));
     (3%Z, 0%Z, #0.58185597255259e-2);
     (3%Z, 1%Z, #(-0.14597008284753e-1));
     (3%Z, 5%Z, #0.56631175631027e-2);
     (4%Z, 0%Z, #(-0.76155864584577e-4));
     (4%Z, 1%Z, #0.22440342919332e-3);
     (4%Z, 4%Z, #(-0.12561095013413e-4));
     (5%Z, 0%Z, #0.63323132660934e-6);
     (5%Z, 1%Z, #(-0.20541989675375e-5));
     (5%Z, 2%Z, #0.36405370390082e-7);
     (6%Z, 0%Z, #(-0.29759897789215e-8));
     (6%Z, 1%Z, #0.10136618529763e-7);
     (7%Z, 0%Z, #0.59925719692351e-11);
     (7%Z, 1%Z, #(-0.20677870105164e-10));
     (7%Z, 3%Z, #(-0.20874278181886e-10));
     (7%Z, 4%Z, #0.10162166825089e-9);
     (7%Z, 5%Z, #(-0.16429828281347e-9))].

(* src/r2/region2_T_ps.rs:134-172 *)
Definition ps2T_reg2c (p : num) (s : num) : num :=
  let pi := p / #1.0 in
  let sigma := #2.0 - (s / #2.9251) in
  #1.0 * (poly_powi pi sigma ps2T_reg2c_IJn).

(* src/r2/region2_T_ps.rs:174-186 *)
Definition ps2T_reg2 (p : num) (s : num) : num :=
  let T := #0.0 in
  if p >? #4.0 then
    if s <? #5.85 then
      ps2T_reg2c p s
    else ps2T_reg2b p s
  else ps2T_reg2a p s.

(* src/r2/region2_p_hs.rs:13-16 *)
Definition ph2s_reg2 (p : num) (h : num) : num :=
  let T := ph2T_reg2 p h in
  pT2s_reg2 p T.

(* src/r2/region2_p_hs.rs:20-55  IJn *)
Definition hs2p_reg2a_IJn : list (Z * Z * num) :=
  [(0%Z, 1%Z, #(-0.182575361923032E-01));
     (0%Z, 3%Z, #(-0.125229548799536));
     (0%Z, 6%Z, #0.592290437320145);
     (0%Z, 16%Z, #0.604769706185122E+01);
     (0%Z, 20%Z, #0.238624965444474E+03);
     (0%Z, 22%Z, #(-0.298639090222922E+03));
     (1%Z, 0%Z, #0.512250813040750E-01);
     (1%Z, 1%Z, #(-0.437266515606486));
     (1%Z, 2%Z, #0.413336902999504);
     (1%Z, 3%Z, #(-0.516468254574773E+01));
     (1%Z, 5%Z, #(-0.557014838445711E+01));
     (1%Z, 6%Z, #0.128555037824478E+02);
     (1%Z, 10%Z, #0.114144108953290E+02);
     (1%Z, 16%Z, #(-0.119504225652714E+03));
     (1%Z, 20%Z, #(-0.284777985961560E+04));
     (1%Z, 22%Z, #0.431757846408006E+04);
     (2%Z, 3%Z, #0.112894040802650E+01);
     (2%Z, 16%Z, #0.197409186206319E+04);
     (2%Z, 20%Z, #0.151612444706087E+04);
     (3%Z, 0%Z, #0.141324451421235E-01);
     (3%Z, 2%Z, #0.585501282219601);
     (3%Z, 3%Z, #(-0.297258075863012E+01));
     (3%Z, 6%Z, #0.594567314847319E+01);
     (3%Z, 16%Z, #(-0.623656565798905E+04));
     (4%Z, 16%Z, #0.965986235133332E+04);
     (5%Z, 3%Z, #0.681500934948134E+01);
     (5%Z, 16%Z, #(-0.633207286824489E+04));
     (6%Z, 3%Z, #(-0.558919224465760E+01));
     (7%Z, 1%Z, #0.400645798472063E-01)].

(* src/r2/region2_p_hs.rs:18-62 *)
Definition hs2p_reg2a (h : num) (s : num) : num :=
  let eta := (h / #4200.0) - #0.5 in
  let sigma := (s / #12.0) - #1.2 in
  let pi := poly_powi eta sigma hs2p_reg2a_IJn in
  let pi2 := pi * pi in
  (#4.0 * pi2) * pi2.

(* src/r2/region2_p_hs.rs:66-106  IJn *)
Definition hs2p_reg2b_IJn : list (Z * Z * num) :=
  [(0%Z, 0%Z, #0.801496989929495E-01);
     (0%Z, 1%Z, #(-0.543862807146111));
     (0%Z, 2%Z, #0.337455597421283);
     (0%Z, 4%Z, #0.890555451157450E+01);
     (0%Z, 8%Z, #0.313840736431485E+03);
     (1%Z, 0%Z, #0.797367065977789);
     (1%Z, 1%Z, #(-0.121616973556240E+01));
     (1%Z, 2%Z, #0.872803386937477E+01);
     (1%Z, 3%Z, #(-0.169769781757602E+02));
     (1%Z, 5%Z, #(-0.186552827328416E+03));
     (1%Z, 12%Z, #0.951159274344237E+05);
     (2%Z, 1%Z, #(-0.189168510120494E+02));
     (2%Z, 6%Z, #(-0.433407037194840E+04));
     (2%Z, 18%Z, #0.543212633012715E+09);
     (3%Z, 0%Z, #0.144793408386013);
     (3%Z, 1%Z, #0.128024559637516E+03);
     (3%Z, 7%Z, #(-0.672309534071268E+05));
     (3%Z, 12%Z, #0.336972380095287E+08);
     (4%Z, 1%Z, #(-0.586634196762720E+03));
     (4%Z, 16%Z, #(-0.221403224769889E+11));
     (5%Z, 1%Z, #0.171606668708389E+04);
     (5%Z, 12%Z, #(-0.570817595806302E+09));
     (6%Z, 1%Z, #(-0.312109693178482E+04));
     (6%Z, 8%Z, #(-0.207841384633010E+07));
     (6%Z, 18%Z, #0.305605946157786E+13);
     (7%Z, 1%Z, #0.322157004314333E+04);
     (7%Z, 16%Z, #0.326810259797295E+12);
     (8%Z, 1%Z, #(-0.144104158934487E+04));
     (8%Z, 3%Z, #0.410694867802691E+03);
     (8%Z, 14%Z, #0.109077066873024E+12);
     (8%Z, 18%Z, #(-0.247964654258893E+14));
     (12%Z, 10%Z, #0.188801906865134E+10);
     (14%Z, 16%Z, #(-0.123651009018773E+15))].

(* src/r2/region2_p_hs.rs:64-112 *)
Definition hs2p_reg2b (h : num) (s : num) : num :=
  let eta := (h / #4100.0) - #0.6 in
  let sigma := (s / #7.9) - #1.01 in
  let pi := poly_powi eta sigma hs2p_reg2b_IJn in
  let pi2 := pi * pi in
  (#100.0 * pi2) * pi2.

(* src/r2/region2_p_hs.rs:116-154  IJn *)
Definition hs2p_reg2c_IJn : list (Z * Z * num) :=
  [(0%Z, 0%Z, #0.112225607199012E+00);
     (0%Z, 1%Z, #(-0.339005953606712E+01));
     (0%Z, 2%Z, #(-0.320503911730094E+02));
     (0%Z, 3%Z, #(-0.197597305104900E+03));
     (0%Z, 4%Z, #(-0.407693861553446E+03));
     (0%Z, 8%Z, #0.132943775222331E+05);
     (1%Z, 0%Z, #0.170846839774007E+01);
     (1%Z, 2%Z, #0.373694198142245E+02);
     (1%Z, 5%Z, #0.358144365815434E+04);
     (1%Z, 8%Z, #0.423014446424664E+06);
     (1%Z, 14%Z, #(-0.751071025760063E+09));
     (2%Z, 2%Z, #0.523446127607898E+02);
     (2%Z, 3%Z, #(-0.228351290812417E+03));
     (2%Z, 7%Z, #(-0.960652417056937E+06));
     (2%Z, 10%Z, #(-0.807059292526074E+08));
     (2%Z, 18%Z, #0.162698017225669E+13);
     (3%Z, 0%Z, #0.772465073604171);
     (3%Z, 5%Z, #0.463929973837746E+05);
     (3%Z, 8%Z, #(-0.137317885134128E+08));
     (3%Z, 16%Z, #0.170470392630512E+13);
     (3%Z, 18%Z, #(-0.251104628187308E+14));
     (4%Z, 18%Z, #0.317748830835520E+14);
     (5%Z, 1%Z, #0.538685623675312E+02);
     (5%Z, 4%Z, #(-0.553089094625169E+05));
     (5%Z, 6%Z, #(-0.102861522421405E+07));
     (5%Z, 14%Z, #0.204249418756234E+13);
     (6%Z, 8%Z, #0.273918446626977E+09);
     (6%Z, 18%Z, #(-0.263963146312685E+16));
     (10%Z, 7%Z, #(-0.107890854108088E+10));
     (12%Z, 7%Z, #(-0.296492620980124E+11));
     (16%Z, 10%Z, #(-0.111754907323424E+16))].

(* src/r2/region2_p_hs.rs:114-161 *)
Definition hs2p_reg2c (h : num) (s : num) : num :=
  let eta := (h / #3500.0) - #0.7 in
  let sigma := (s / #5.9) - #1.1 in
  let pi := poly_powi eta sigma hs2p_reg2c_IJn in
  let pi2 := pi * pi in
  (#100.0 * pi2) * pi2.

(* src/r2/region2_p_hs.rs:169-174 *)
Definition s2h_reg2_ab (s : num) : num :=
  let n := [#(-0.349898083432139E+04); #0.257560716905876E+04; #(-0.421073558227969E+03); #0.276349063799944E+02] in
  let sigma := s / #1.0 in
  let eta := (nth (0%nat) n (#0.0)) + (sigma * ((nth (1%nat) n (#0.0)) + (sigma * ((nth (2%nat) n (#0.0)) + ((nth (3%nat) n (#0.0)) * sigma))))) in
  eta * #1.0.

(* src/r2/region2_p_hs.rs:176-189 *)
Definition hs2p_reg2 (h : num) (s : num) : num :=
  let h2ab := s2h_reg2_ab s in
  let p := #0.0 in
  if h >? h2ab then
    if s >=? #5.85 then
      hs2p_reg2b h s
    else hs2p_reg2c h s
  else hs2p_reg2a h s.

(* src/r2/region2_pair_ext.rs:11-23 *)
Definition p2Tmin_reg2 (p : num) : num :=
  let Tmin := T_MIN2 in
  if (p >? #0.0) && (p <? #0.000611213) then
    T_MIN2
  else if (p >=? #0.000611213) && (p <=? (p_saturation (#623.15))) then
    T_saturation p
  else B23_p2T p.

(* src/r2/region2_pair_ext.rs:25-39 *)
Definition T2pmax_reg2 (T : num) : num :=
  let pmax := P_MAX2 in
  if (T >=? #273.15) && (T <=? #623.15) then
    p_saturation T
  else if (T >? #623.15) && (T <=? #863.15) then
    B23_T2p T
  else if (T >? #863.15) && (T <=? #1073.15) then
    #100.0
  else pmax.

(* src/r2/region2_pair_ext.rs:248-273 *)
Definition Ts2p_reg2 (T : num) (s : num) : num :=
  let pmax2 := T2pmax_reg2 T in
  let p1 := P_MIN2 in
  let s1 := pT2s_reg2 p1 T in
  let f1 := s - s1 in
  let p2 := pmax2 in
  let s2 := pT2s_reg2 p2 T in
  let f2 := s - s2 in
  let p1 := p2 - (((p2 - p1) * (s - s2)) / (s1 - s2)) in
  let p1 :=
    if p1 <? P_MIN2 then
      P_MIN2
    else p1 in
  let s1 := pT2s_reg2 p1 T in
  let f1 := s - s1 in
  if (nabs f1) <? ESP then
    p1
  else 
  let p := rtsec1 pT2s_reg2 T s p1 p2 f1 f2 ESP I_MAX in
  if p <? P_MIN2 then
    P_MIN2
  else if p >? pmax2 then
    pmax2
  else p.

(* src/r2/region2_pair_ext.rs:79-96, one round of the "zoom" loop.  The loop leaves as soon as
   steps < MAX_STEPS, i.e. after its first round (PropsTerm.v). *)
Definition pv2T_reg2_zoom_round (p v Tmin2 : num) (st : num * num * Z) : (num * num * Z) + num :=
  let '(T, v0, steps) := st in
  let '(T, v0, steps) :=
    if v0 >? v then
      let steps := (steps + 1)%Z in
      let T := T - #0.001 in
      let v0 := if T <? Tmin2 then pT2v_reg2 p T else v0 in
      (T, v0, steps)
    else
      let steps := (steps + 1)%Z in
      let T := T + #0.001 in
      let v0 := if T >? T_MAX2 then pT2v_reg2 p T else v0 in
      (T, v0, steps) in
  if (steps <? 1000)%Z then inr T
  else inl (T, v0, steps).

(* src/r2/region2_pair_ext.rs:78-97 *)
Definition pv2T_reg2_zoom (p v Tmin2 T v0 : num) : num :=
  match loop_pos 1000 (pv2T_reg2_zoom_round p v Tmin2) (T, v0, 0%Z) with
  | inr T => T
  | inl (T, _, _) => T
  end.

(* src/r2/region2_pair_ext.rs:45-98 *)
Definition pv2T_reg2 (p v : num) : num :=
  let Tmin2 := p2Tmin_reg2 p in
  let T1 := Tmin2 in
  let v1 := pT2v_reg2 p T1 in
  let f1 := v - v1 in
  let T2 := #1.1 * T1 in
  let v2 := pT2v_reg2 p T2 in
  let f := v - v2 in
  let T1 := T1 + (T2 - T1) * (v - v1) / nabs (v2 - v1) in
  let v1 := pT2v_reg2 p T1 in
  let f1 := v - v1 in
  if nabs f1 <? ESP then T1
  else
  let T := rtsec2 pT2v_reg2 p v T1 T2 f1 f ESP I_MAX in
  let T := if T <? Tmin2 then Tmin2 else T in
  let T := if T >? T_MAX2 then T_MAX2 else T in
  let v0 := pT2v_reg2 p T in
  if nabs (v0 - v) >? ESP then pv2T_reg2_zoom p v Tmin2 T v0
  else T.

(* src/r2/region2_pair_ext.rs:127-148 and 197-218 (identical up to the property
   v/h): the search for a bracket.  [Some (inl p)] is an early return of p,
   [Some (inr (p1, p2, y1, y2))] the state after the loop, [None] means the loop is
   still running after [fuel] rounds. *)
Definition bracket_reg2 (fn : num -> num -> num) (fuel : positive) (T y pmax2 p1 p2 y1 y2 : num)
  (bounded : bool) : option (num + (num * num * num * num)) :=
  match loop_pos fuel
    (fun '(p1, p2, y1, y2, bounded) =>
       if negb bounded then
         let p1 := p2 in
         let y1 := y2 in
         let p2 := if p1 >? #1.0 then p1 + #1.0 else p2 in
         let p2 := if p1 <? #1.0 then p1 * #5.0 else p2 in
         let '(p2, bounded) := if p2 >=? pmax2 then (pmax2, true) else (p2, bounded) in
         let y2 := fn p2 T in
         if nabs (y - y2) <? ESP then inr (inl p2)
         else
         let bounded := if (y >? y2) && (y <? y1) then true else bounded in
         inl (p1, p2, y1, y2, bounded)
       else inr (inr (p1, p2, y1, y2))) (p1, p2, y1, y2, bounded) with
  | inr r => Some r
  | inl _ => None
  end.

(* src/r2/region2_pair_ext.rs:150-168 *)
Definition Tv2p_reg2_finish (T v pmax2 p1 p2 v1 v2 : num) : num :=
  let f2 := v - v2 in
  let pmid := p2 - (p2 - p1) * (v - v2) / (v1 - v2) in
  let p1 := if v <? pT2v_reg2 pmid T then pmid else p1 in
  let p1 := if p1 <? P_MIN2 then P_MIN2 else p1 in
  let f1 := v - pT2v_reg2 p1 T in
  if nabs f1 <? ESP then p1
  else
  let p := rtsec1 pT2v_reg2 T v p1 p2 f1 f2 ESP I_MAX in
  if p <? P_MIN2 then P_MIN2
  else if p >? pmax2 then pmax2 else p.

(* src/r2/region2_pair_ext.rs:104-169 *)
Definition Tv2p_reg2 (fuel : positive) (T v : num) : option num :=
  let p1 := P_MIN2 in
  let v1 := pT2v_reg2 p1 T in
  if nabs (v - v1) <? ESP then Some p1
  else
  let p2 := p1 * #5.0 in
  let v2 := pT2v_reg2 p2 T in
  if nabs (v - v2) <? ESP then Some p2
  else
  let bounded := (v >? v2) && (v <? v1) in
  let pmax2 := T2pmax_reg2 T in
  match bracket_reg2 pT2v_reg2 fuel T v pmax2 p1 p2 v1 v2 bounded with
  | None => None
  | Some (inl p) => Some p
  | Some (inr (p1, p2, v1, v2)) => Some (Tv2p_reg2_finish T v pmax2 p1 p2 v1 v2)
  end.

(* src/r2/region2_pair_ext.rs:220-242 *)
Definition Th2p_reg2_finish (T h pmax2 p1 p2 h1 h2 : num) : num :=
  let f2 := h - h2 in
  let pmid := p2 - (p2 - p1) * (h - h2) / (h1 - h2) in
  let pmid := if pmid <? P_MIN2 then P_MIN2 else pmid in
  let p1 := if h <=? pT2h_reg2 pmid T then pmid else p1 in
  let h1 := pT2h_reg2 p1 T in
  let f1 := h - h1 in
  if nabs f1 <? ESP then p1
  else
  let p := rtsec1 pT2h_reg2 T h p1 p2 f1 f2 ESP I_MAX in
  let p := if p <? P_MIN2 then P_MIN2 else p in
  if p >? pmax2 then pmax2 else p.

(* src/r2/region2_pair_ext.rs:175-242 *)
Definition Th2p_reg2 (fuel : positive) (T h : num) : option num :=
  let pmax2 := T2pmax_reg2 T in
  let p1 := P_MIN2 in
  let h1 := pT2h_reg2 p1 T in
  if nabs (h - h1) <? ESP then Some p1
  else
  let p2 := p1 * #5.0 in
  let h2 := pT2h_reg2 p2 T in
  if nabs (h - h2) <? ESP then Some p2
  else
  let bounded := (h >? h2) && (h <? h1) in
  match bracket_reg2 pT2h_reg2 fuel T h pmax2 p1 p2 h1 h2 bounded with
  | None => None
  | Some (inl p) => Some p
  | Some (inr (p1, p2, h1, h2)) => Some (Th2p_reg2_finish T h pmax2 p1 p2 h1 h2)
  end.

(* src/r2/region2.rs:24-36 *)
Definition pT_thermal_reg2 (p : num) (T : num) (o_id : Z) : num :=
  if Z.eqb o_id OV then
    pT2v_reg2 p T
  else if Z.eqb o_id OD then
    #1.0 / (pT2v_reg2 p T)
  else if Z.eqb o_id OH then
    pT2h_reg2 p T
  else if Z.eqb o_id OS then
    pT2s_reg2 p T
  else if Z.eqb o_id OU then
    pT2u_reg2 p T
  else if Z.eqb o_id OCV then
    pT2cv_reg2 p T
  else if Z.eqb o_id OCP then
    pT2cp_reg2 p T
  else if Z.eqb o_id OW then
    pT2w_reg2 p T
  else 
    pT_ext_reg2 p T o_id.

(* src/r2/region2.rs:16-21 *)
Definition pT_reg2 (p : num) (T : num) (o_id : Z) : num :=
  if ((((((Z.eqb o_id OST) || (Z.eqb o_id ODV)) || (Z.eqb o_id OKV)) || (Z.eqb o_id OTC)) || (Z.eqb o_id OSDC)) || (Z.eqb o_id OPR)) || (Z.eqb o_id OTD) then
    pair_transport_reg p T o_id PAIRS_pT pT_thermal_reg2
  else 
    pT_thermal_reg2 p T o_id.

(* src/r2/region2.rs:38-41 *)
Definition pt_reg2 (p : num) (t : num) (o_id : Z) : num :=
  let T := t + #273.15 in
  pT_reg2 p T o_id.

(* src/r2/region2.rs:43-49 *)
Definition ph_reg2 (p : num) (h : num) (o_id : Z) : num :=
  let T := ph2T_reg2 p h in
  if Z.eqb o_id OT then
    T - #273.15
  else 
  pT_reg2 p T o_id.

(* src/r2/region2.rs:51-57 *)
Definition ps_reg2 (p : num) (s : num) (o_id : Z) : num :=
  let T := ps2T_reg2 p s in
  if Z.eqb o_id OT then
    T - #273.15
  else 
  pT_reg2 p T o_id.

(* src/r2/region2.rs:59-65 *)
Definition hs_reg2 (h : num) (s : num) (o_id : Z) : num :=
  let p := hs2p_reg2 h s in
  if Z.eqb o_id OP then
    p
  else 
  ph_reg2 p h o_id.

(* src/r2/region2.rs:71-77 *)
Definition pv_reg2 (p : num) (v : num) (o_id : Z) : num :=
  let T := pv2T_reg2 p v in
  if Z.eqb o_id OT then
    T - #273.15
  else 
  pT_reg2 p T o_id.

(* src/r2/region2.rs:99-105 *)
Definition ts_reg2 (t : num) (s : num) (o_id : Z) : num :=
  let p := Ts2p_reg2 (t + #273.15) s in
  if Z.eqb o_id OP then
    p
  else 
  pT_reg2 p (t + #273.15) o_id.

(* src/r2/region2.rs:81-88; [fuel] bounds the bracket search of Tv2p_reg2 *)
Definition tv_reg2 (fuel : positive) (t v : num) (o_id : Z) : option num :=
  let T := t + K in
  match Tv2p_reg2 fuel T v with
  | None => None
  | Some p => Some (if Z.eqb o_id OP then p else pT_reg2 p T o_id)
  end.

(* src/r2/region2.rs:91-97; [fuel] bounds the bracket search of Th2p_reg2 *)
Definition th_reg2 (fuel : positive) (t h : num) (o_id : Z) : option num :=
  match Th2p_reg2 fuel (t + #273.15) h with
  | None => None
  | Some p => Some (if Z.eqb o_id OP then p else pT_reg2 p (t + #273.15) o_id)
  end.

End Model.
