(* Generated by tools/rs2v.py from src/r3/region3_Tv_phps.rs, src/r3/region3_p_hs.rs, src/r3/region3_pair_ext.rs, src/r3/region3.rs.
   Every definition cites the source lines it models; see tools/rs2v.py for the
   translation rules (mutable variables become let-rebinding, match on constants
   becomes an if-chain in source order, for loops over ranges become fold_left). *)
From Coq Require Import ZArith List Bool String.
From Verif Require Import Num Algo Constant Transport Reg3Td Boundaries Reg3V.
Import ListNotations.
Open Scope num_scope.

Section Model.
Context {N : Arith}.

(* src/r3/region3_Tv_phps.rs:12-12  n *)
Definition p2h_3ab_n : list num :=
  [#0.201464004206875E+04; #0.374696550136983E+01; #(-0.219921901054187E-01); #0.875131686009950E-04].

(* src/r3/region3_Tv_phps.rs:9-16 *)
Definition p2h_3ab (p : num) : num :=
  let pi := p / #1.0 in
  let eta := (nth (0%nat) p2h_3ab_n (#0.0)) + (pi * ((nth (1%nat) p2h_3ab_n (#0.0)) + (pi * ((nth (2%nat) p2h_3ab_n (#0.0)) + ((nth (3%nat) p2h_3ab_n (#0.0)) * pi))))) in
  eta * #1.0.

(* src/r3/region3_Tv_phps.rs:21-53  IJn *)
Definition ph2T_3a_reg3_IJn : list (Z * Z * num) :=
  [((-12)%Z, 0%Z, #(-1.33645667811215e-7));
     ((-12)%Z, 1%Z, #4.55912656802978e-6);
     ((-12)%Z, 2%Z, #(-1.46294640700979e-5));
     ((-12)%Z, 6%Z, #6.39341312970080e-3);
     ((-12)%Z, 14%Z, #3.72783927268847e2);
     ((-12)%Z, 16%Z, #(-7.18654377460447e3));
     ((-12)%Z, 20%Z, #5.73494752103400e5);
     ((-12)%Z, 22%Z, #(-2.67569329111439e6));
     ((-10)%Z, 1%Z, #(-3.34066283302614e-5));
     ((-10)%Z, 5%Z, #(-2.45479214069597e-2));
     ((-10)%Z, 12%Z, #4.78087847764996e1);
     ((-8)%Z, 0%Z, #7.64664131818904e-6);
     ((-8)%Z, 2%Z, #1.28350627676972e-3);
     ((-8)%Z, 4%Z, #1.71219081377331e-2);
     ((-8)%Z, 10%Z, #(-8.51007304583213));
     ((-5)%Z, 2%Z, #(-1.36513461629781e-2));
     ((-3)%Z, 0%Z, #(-3.84460997596657e-6));
     ((-2)%Z, 1%Z, #3.37423807911655e-3);
     ((-2)%Z, 3%Z, #(-5.51624873066791e-1));
     ((-2)%Z, 4%Z, #7.29202277107470e-1);
     ((-1)%Z, 0%Z, #(-9.92522757376041e-3));
     ((-1)%Z, 2%Z, #(-1.19308831407288e-1));
     (0%Z, 0%Z, #7.93929190615421e-1);
     (0%Z, 1%Z, #4.54270731799386e-1);
     (1%Z, 1%Z, #2.09998591259910e-1);
     (3%Z, 0%Z, #(-6.42109823904738e-3));
     (3%Z, 1%Z, #(-2.35155868604540e-2));
     (4%Z, 0%Z, #2.52233108341612e-3);
     (4%Z, 3%Z, #(-7.64885133368119e-3));
     (10%Z, 4%Z, #1.36176427574291e-2);
     (12%Z, 5%Z, #(-1.33027883575669e-2))].

(* src/r3/region3_Tv_phps.rs:19-58 *)
Definition ph2T_3a_reg3 (p : num) (h : num) : num :=
  let pi := (p / #100.0) + #0.240 in
  let eta := (h / #2300.0) - #0.615 in
  #760.0 * (poly_powi pi eta ph2T_3a_reg3_IJn).

(* src/r3/region3_Tv_phps.rs:63-97  IJn *)
Definition ph2T_3b_reg3_IJn : list (Z * Z * num) :=
  [((-12)%Z, 0%Z, #3.23254573644920e-5);
     ((-12)%Z, 1%Z, #(-1.27575556587181e-4));
     ((-10)%Z, 0%Z, #(-4.75851877356068e-4));
     ((-10)%Z, 1%Z, #1.56183014181602e-3);
     ((-10)%Z, 5%Z, #1.05724860113781e-1);
     ((-10)%Z, 10%Z, #(-8.58514221132534e1));
     ((-10)%Z, 12%Z, #7.24140095480911e2);
     ((-8)%Z, 0%Z, #2.96475810273257e-3);
     ((-8)%Z, 1%Z, #(-5.92721983365988e-3));
     ((-8)%Z, 2%Z, #(-1.26305422818666e-2));
     ((-8)%Z, 4%Z, #(-1.15716196364853e-1));
     ((-8)%Z, 10%Z, #8.49000969739595e1);
     ((-6)%Z, 0%Z, #(-1.08602260086615e-2));
     ((-6)%Z, 1%Z, #1.54304475328851e-2);
     ((-6)%Z, 2%Z, #7.50455441524466e-2);
     ((-4)%Z, 0%Z, #2.52520973612982e-2);
     ((-4)%Z, 1%Z, #(-6.02507901232996e-2));
     ((-3)%Z, 5%Z, #(-3.07622221350501));
     ((-2)%Z, 0%Z, #(-5.74011959864879e-2));
     ((-2)%Z, 4%Z, #5.03471360939849);
     ((-1)%Z, 2%Z, #(-9.25081888584834e-1));
     ((-1)%Z, 4%Z, #3.91733882917546);
     ((-1)%Z, 6%Z, #(-7.73146007130190e1));
     ((-1)%Z, 10%Z, #9.49308762098587e3);
     ((-1)%Z, 14%Z, #(-1.41043719679409e6));
     ((-1)%Z, 16%Z, #8.49166230819026e6);
     (0%Z, 0%Z, #8.61095729446704e-1);
     (0%Z, 2%Z, #3.23346442811720e-1);
     (1%Z, 1%Z, #8.73281936020439e-1);
     (3%Z, 1%Z, #(-4.36653048526683e-1));
     (5%Z, 1%Z, #2.86596714529479e-1);
     (6%Z, 1%Z, #(-1.31778331276228e-1));
     (8%Z, 1%Z, #6.76682064330275e-3)].

(* src/r3/region3_Tv_phps.rs:61-102 *)
Definition ph2T_3b_reg3 (p : num) (h : num) : num :=
  let pi := (p / #100.0) + #0.298 in
  let eta := (h / #2800.0) - #0.720 in
  #860.0 * (poly_powi pi eta ph2T_3b_reg3_IJn).

(* src/r3/region3_Tv_phps.rs:107-140  IJn *)
Definition ph2v_3a_reg3_IJn : list (Z * Z * num) :=
  [((-12)%Z, 6%Z, #5.29944062966028e-3);
     ((-12)%Z, 8%Z, #(-1.70099690234461e-1));
     ((-12)%Z, 12%Z, #1.11323814312927e1);
     ((-12)%Z, 18%Z, #(-2.17898123145125e3));
     ((-10)%Z, 4%Z, #(-5.06061827980875e-4));
     ((-10)%Z, 7%Z, #5.56495239685324e-1);
     ((-10)%Z, 10%Z, #(-9.43672726094016));
     ((-8)%Z, 5%Z, #(-2.97856807561527e-1));
     ((-8)%Z, 12%Z, #9.39353943717186e1);
     ((-6)%Z, 3%Z, #1.92944939465981e-2);
     ((-6)%Z, 4%Z, #4.21740664704763e-1);
     ((-6)%Z, 22%Z, #(-3.68914126282330e6));
     ((-4)%Z, 2%Z, #(-7.37566847600639e-3));
     ((-4)%Z, 3%Z, #(-3.54753242424366e-1));
     ((-3)%Z, 7%Z, #(-1.99768169338727));
     ((-2)%Z, 3%Z, #1.15456297059049);
     ((-2)%Z, 16%Z, #5.68366875815960e3);
     ((-1)%Z, 0%Z, #8.08169540124668e-3);
     ((-1)%Z, 1%Z, #1.72416341519307e-1);
     ((-1)%Z, 2%Z, #1.04270175292927);
     ((-1)%Z, 3%Z, #(-2.97691372792847e-1));
     (0%Z, 0%Z, #5.60394465163593e-1);
     (0%Z, 1%Z, #2.75234661176914e-1);
     (1%Z, 0%Z, #(-1.48347894866012e-1));
     (1%Z, 1%Z, #(-6.51142513478515e-2));
     (1%Z, 2%Z, #(-2.92468715386302));
     (2%Z, 0%Z, #6.64876096952665e-2);
     (2%Z, 2%Z, #3.52335014263844);
     (3%Z, 0%Z, #(-1.46340792313332e-2));
     (4%Z, 2%Z, #(-2.24503486668184));
     (5%Z, 2%Z, #1.10533464706142);
     (8%Z, 2%Z, #(-4.08757344495612e-2))].

(* src/r3/region3_Tv_phps.rs:105-145 *)
Definition ph2v_3a_reg3 (p : num) (h : num) : num :=
  let pi := (p / #100.0) + #0.128 in
  let eta := (h / #2100.0) - #0.727 in
  #0.0028 * (poly_powi pi eta ph2v_3a_reg3_IJn).

(* src/r3/region3_Tv_phps.rs:150-181  IJn *)
Definition ph2v_3b_reg3_IJn : list (Z * Z * num) :=
  [((-12)%Z, 0%Z, #(-2.25196934336318e-9));
     ((-12)%Z, 1%Z, #1.40674363313486e-8);
     ((-8)%Z, 0%Z, #2.33784085280560e-6);
     ((-8)%Z, 1%Z, #(-3.31833715229001e-5));
     ((-8)%Z, 3%Z, #1.07956778514318e-3);
     ((-8)%Z, 6%Z, #(-2.71382067378863e-1));
     ((-8)%Z, 7%Z, #1.07202262490333);
     ((-8)%Z, 8%Z, #(-8.53821329075382e-1));
     ((-6)%Z, 0%Z, #(-2.15214194340526e-5));
     ((-6)%Z, 1%Z, #7.69656088222730e-4);
     ((-6)%Z, 2%Z, #(-4.31136580433864e-3));
     ((-6)%Z, 5%Z, #4.53342167309331e-1);
     ((-6)%Z, 6%Z, #(-5.07749535873652e-1));
     ((-6)%Z, 10%Z, #(-1.00475154528389e2));
     ((-4)%Z, 3%Z, #(-2.19201924648793e-1));
     ((-4)%Z, 6%Z, #(-3.21087965668917));
     ((-4)%Z, 10%Z, #6.07567815637771e2);
     ((-3)%Z, 0%Z, #5.57686450685932e-4);
     ((-3)%Z, 2%Z, #1.87499040029550e-1);
     ((-2)%Z, 1%Z, #9.05368030448107e-3);
     ((-2)%Z, 2%Z, #2.85417173048685e-1);
     ((-1)%Z, 0%Z, #3.29924030996098e-2);
     ((-1)%Z, 1%Z, #2.39897419685483e-1);
     ((-1)%Z, 4%Z, #4.82754995951394);
     ((-1)%Z, 5%Z, #(-1.18035753702231e1));
     (0%Z, 0%Z, #1.69490044091791e-1);
     (1%Z, 0%Z, #(-1.79967222507787e-2));
     (1%Z, 1%Z, #3.71810116332674e-2);
     (2%Z, 2%Z, #(-5.36288335065096e-2));
     (2%Z, 6%Z, #1.60697101092520)].

(* src/r3/region3_Tv_phps.rs:148-186 *)
Definition ph2v_3b_reg3 (p : num) (h : num) : num :=
  let pi := (p / #100.0) + #0.0661 in
  let eta := (h / #2800.0) - #0.720 in
  #0.0088 * (poly_powi pi eta ph2v_3b_reg3_IJn).

(* src/r3/region3_Tv_phps.rs:189-196 *)
Definition ph2T_reg3 (p : num) (h : num) : num :=
  let h3ab := p2h_3ab p in
  if h <=? h3ab then
    ph2T_3a_reg3 p h
  else 
    ph2T_3b_reg3 p h.

(* src/r3/region3_Tv_phps.rs:198-205 *)
Definition ph2v_reg3 (p : num) (h : num) : num :=
  let h3ab := p2h_3ab p in
  if h <=? h3ab then
    ph2v_3a_reg3 p h
  else 
    ph2v_3b_reg3 p h.

(* src/r3/region3_Tv_phps.rs:209-243  IJn *)
Definition ps2T_3a_reg3_IJn : list (Z * Z * num) :=
  [((-12)%Z, 28%Z, #0.150042008263875E+10);
     ((-12)%Z, 32%Z, #(-0.159397258480424E+12));
     ((-10)%Z, 4%Z, #0.502181140217975E-03);
     ((-10)%Z, 10%Z, #(-0.672057767855466E+02));
     ((-10)%Z, 12%Z, #0.145058545404456E+04);
     ((-10)%Z, 14%Z, #(-0.823889534888890E+04));
     ((-8)%Z, 5%Z, #(-0.154852214233853E+00));
     ((-8)%Z, 7%Z, #0.112305046746695E+02);
     ((-8)%Z, 8%Z, #(-0.297000213482822E+02));
     ((-8)%Z, 28%Z, #0.438565132635495E+11);
     ((-6)%Z, 2%Z, #0.137837838635464E-02);
     ((-6)%Z, 6%Z, #(-0.297478527157462E+01));
     ((-6)%Z, 32%Z, #0.971777947349413E+13);
     ((-5)%Z, 0%Z, #(-0.571527767052398E-04));
     ((-5)%Z, 14%Z, #0.288307949778420E+05);
     ((-5)%Z, 32%Z, #(-0.744428289262703E+14));
     ((-4)%Z, 6%Z, #0.128017324848921E+02);
     ((-4)%Z, 10%Z, #(-0.368275545889071E+03));
     ((-4)%Z, 36%Z, #0.664768904779177E+16);
     ((-2)%Z, 1%Z, #0.449359251958880E-01);
     ((-2)%Z, 4%Z, #(-0.422897836099655E+01));
     ((-1)%Z, 1%Z, #(-0.240614376434179E+00));
     ((-1)%Z, 6%Z, #(-0.474341365254924E+01));
     (0%Z, 0%Z, #0.724093999126110E+00);
     (0%Z, 1%Z, #0.923874349695897E+00);
     (0%Z, 4%Z, #0.399043655281015E+01);
     (1%Z, 0%Z, #0.384066651868009E-01);
     (2%Z, 0%Z, #(-0.359344365571848E-02));
     (2%Z, 3%Z, #(-0.735196448821653E+00));
     (3%Z, 2%Z, #0.188367048396131E+00);
     (8%Z, 0%Z, #0.141064266818704E-03);
     (8%Z, 1%Z, #(-0.257418501496337E-02));
     (10%Z, 2%Z, #0.123220024851555E-02)].

(* src/r3/region3_Tv_phps.rs:208-247 *)
Definition ps2T_3a_reg3 (p : num) (s : num) : num :=
  let pi := (p / #100.0) + #0.240 in
  let sigma := (s / #4.4) - #0.703 in
  #760.0 * (poly_powi pi sigma ps2T_3a_reg3_IJn).

(* src/r3/region3_Tv_phps.rs:251-280  IJn *)
Definition ps2T_3b_reg3_IJn : list (Z * Z * num) :=
  [((-12)%Z, 1%Z, #0.527111701601660E+00);
     ((-12)%Z, 3%Z, #(-0.401317830052742E+02));
     ((-12)%Z, 4%Z, #0.153020073134484E+03);
     ((-12)%Z, 7%Z, #(-0.224799398218827E+04));
     ((-8)%Z, 0%Z, #(-0.193993484669048E+00));
     ((-8)%Z, 1%Z, #(-0.140467557893768E+01));
     ((-8)%Z, 3%Z, #0.426799878114024E+02);
     ((-6)%Z, 0%Z, #0.752810643416743E+00);
     ((-6)%Z, 2%Z, #0.226657238616417E+02);
     ((-6)%Z, 4%Z, #(-0.622873556909932E+03));
     ((-5)%Z, 0%Z, #(-0.660823667935396E+00));
     ((-5)%Z, 1%Z, #0.841267087271658E+00);
     ((-5)%Z, 2%Z, #(-0.253717501764397E+02));
     ((-5)%Z, 4%Z, #0.485708963532948E+03);
     ((-5)%Z, 6%Z, #0.880531517490555E+03);
     ((-4)%Z, 12%Z, #0.265015592794626E+07);
     ((-3)%Z, 1%Z, #(-0.359287150025783E+00));
     ((-3)%Z, 6%Z, #(-0.656991567673753E+03));
     ((-2)%Z, 2%Z, #0.241768149185367E+01);
     (0%Z, 0%Z, #0.856873461222588E+00);
     (2%Z, 1%Z, #0.655143675313458E+00);
     (3%Z, 1%Z, #(-0.213535213206406E+00));
     (4%Z, 0%Z, #0.562974957606348E-02);
     (5%Z, 24%Z, #(-0.316955725450471E+15));
     (6%Z, 0%Z, #(-0.699997000152457E-03));
     (8%Z, 3%Z, #0.119845803210767E-01);
     (12%Z, 1%Z, #0.193848122022095E-04);
     (14%Z, 2%Z, #(-0.215095749182309E-04))].

(* src/r3/region3_Tv_phps.rs:250-285 *)
Definition ps2T_3b_reg3 (p : num) (s : num) : num :=
  let pi := (p / #100.0) + #0.760 in
  let sigma := (s / #5.3) - #0.818 in
  #860.0 * (poly_powi pi sigma ps2T_3b_reg3_IJn).

(* src/r3/region3_Tv_phps.rs:289-318  IJn *)
Definition ps2v_3a_reg3_IJn : list (Z * Z * num) :=
  [((-12)%Z, 10%Z, #0.795544074093975E+02);
     ((-12)%Z, 12%Z, #(-0.238261242984590E+04));
     ((-12)%Z, 14%Z, #0.176813100617787E+05);
     ((-10)%Z, 4%Z, #(-0.110524727080379E-02));
     ((-10)%Z, 8%Z, #(-0.153213833655326E+02));
     ((-10)%Z, 10%Z, #0.297544599376982E+03);
     ((-10)%Z, 20%Z, #(-0.350315206871242E+08));
     ((-8)%Z, 5%Z, #0.277513761062119);
     ((-8)%Z, 6%Z, #(-0.523964271036888));
     ((-8)%Z, 14%Z, #(-0.148011182995403E+06));
     ((-8)%Z, 16%Z, #0.160014899374266E+07);
     ((-6)%Z, 28%Z, #0.170802322663427E+13);
     ((-5)%Z, 1%Z, #0.246866996006494E-03);
     ((-4)%Z, 5%Z, #0.165326084797980E+01);
     ((-3)%Z, 2%Z, #(-0.118008384666987));
     ((-3)%Z, 4%Z, #0.253798642355900E+01);
     ((-2)%Z, 3%Z, #0.965127704669424);
     ((-2)%Z, 8%Z, #(-0.282172420532826E+02));
     ((-1)%Z, 1%Z, #0.203224612353823);
     ((-1)%Z, 2%Z, #0.110648186063513E+01);
     (0%Z, 0%Z, #0.526127948451280);
     (0%Z, 1%Z, #0.277000018736321);
     (0%Z, 3%Z, #0.108153340501132E+01);
     (1%Z, 0%Z, #(-0.744127885357893E-01));
     (2%Z, 0%Z, #0.164094443541384E-01);
     (4%Z, 2%Z, #(-0.680468275301065E-01));
     (5%Z, 2%Z, #0.257988576101640E-01);
     (6%Z, 0%Z, #(-0.145749861944416E-03))].

(* src/r3/region3_Tv_phps.rs:288-323 *)
Definition ps2v_3a_reg3 (p : num) (s : num) : num :=
  let pi := (p / #100.0) + #0.187 in
  let sigma := (s / #4.4) - #0.755 in
  #0.0028 * (poly_powi pi sigma ps2v_3a_reg3_IJn).

(* src/r3/region3_Tv_phps.rs:327-359  IJn *)
Definition ps2v_3b_reg3_IJn : list (Z * Z * num) :=
  [((-12)%Z, 0%Z, #0.591599780322238E-04);
     ((-12)%Z, 1%Z, #(-0.185465997137856E-02));
     ((-12)%Z, 2%Z, #0.104190510480013E-01);
     ((-12)%Z, 3%Z, #0.598647302038590E-02);
     ((-12)%Z, 5%Z, #(-0.771391189901699));
     ((-12)%Z, 6%Z, #0.172549765557036E+01);
     ((-10)%Z, 0%Z, #(-0.467076079846526E-03));
     ((-10)%Z, 1%Z, #0.134533823384439E-01);
     ((-10)%Z, 2%Z, #(-0.808094336805495E-01));
     ((-10)%Z, 4%Z, #0.508139374365767);
     ((-8)%Z, 0%Z, #0.128584643361683E-02);
     ((-5)%Z, 1%Z, #(-0.163899353915435E+01));
     ((-5)%Z, 2%Z, #0.586938199318063E+01);
     ((-5)%Z, 3%Z, #(-0.292466667918613E+01));
     ((-4)%Z, 0%Z, #(-0.614076301499537E-02));
     ((-4)%Z, 1%Z, #0.576199014049172E+01);
     ((-4)%Z, 2%Z, #(-0.121613320606788E+02));
     ((-4)%Z, 3%Z, #0.167637540957944E+01);
     ((-3)%Z, 1%Z, #(-0.744135838773463E+01));
     ((-2)%Z, 0%Z, #0.378168091437659E-01);
     ((-2)%Z, 1%Z, #0.401432203027688E+01);
     ((-2)%Z, 2%Z, #0.160279837479185E+02);
     ((-2)%Z, 3%Z, #0.317848779347728E+01);
     ((-2)%Z, 4%Z, #(-0.358362310304853E+01));
     ((-2)%Z, 12%Z, #(-0.115995260446827E+07));
     (0%Z, 0%Z, #0.199256573577909);
     (0%Z, 1%Z, #(-0.122270624794624));
     (0%Z, 2%Z, #(-0.191449143716586E+02));
     (1%Z, 0%Z, #(-0.150448002905284E-01));
     (1%Z, 2%Z, #0.146407900162154E+02);
     (2%Z, 2%Z, #(-0.327477787188230E+01))].

(* src/r3/region3_Tv_phps.rs:326-364 *)
Definition ps2v_3b_reg3 (p : num) (s : num) : num :=
  let pi := (p / #100.0) + #0.298 in
  let sigma := (s / #5.3) - #0.816 in
  #0.0088 * (poly_powi pi sigma ps2v_3b_reg3_IJn).

(* src/r3/region3_Tv_phps.rs:366-372 *)
Definition ps2T_reg3 (p : num) (s : num) : num :=
  if s <=? SC_WATER then
    ps2T_3a_reg3 p s
  else 
    ps2T_3b_reg3 p s.

(* src/r3/region3_Tv_phps.rs:374-380 *)
Definition ps2v_reg3 (p : num) (s : num) : num :=
  if s <=? SC_WATER then
    ps2v_3a_reg3 p s
  else 
    ps2v_3b_reg3 p s.

(* src/r3/region3_p_hs.rs:13-47  IJn *)
Definition hs2p3a_reg3_IJn : list (Z * Z * num) :=
  [(0%Z, 0%Z, #0.770889828326934e1);
     (0%Z, 1%Z, #(-0.260835009128688e2));
     (0%Z, 5%Z, #0.267416218930389e3);
     (1%Z, 0%Z, #0.172221089496844e2);
     (1%Z, 3%Z, #(-0.293542332145970e3));
     (1%Z, 4%Z, #0.614135601882478e3);
     (1%Z, 8%Z, #(-0.610562757725674e5));
     (1%Z, 14%Z, #(-0.651272251118219e8));
     (2%Z, 6%Z, #0.735919313521937e5);
     (2%Z, 16%Z, #(-0.116646505914191e11));
     (3%Z, 0%Z, #0.355267086434461e2);
     (3%Z, 2%Z, #(-0.596144543825955e3));
     (3%Z, 3%Z, #(-0.475842430145708e3));
     (4%Z, 0%Z, #0.696781965359503e2);
     (4%Z, 1%Z, #0.335674250377312e3);
     (4%Z, 4%Z, #0.250526809130882e5);
     (4%Z, 5%Z, #0.146997380630766e6);
     (5%Z, 28%Z, #0.538069315091534e20);
     (6%Z, 28%Z, #0.143619827291346e22);
     (7%Z, 24%Z, #0.364985866165994e20);
     (8%Z, 1%Z, #(-0.254741561156775e4));
     (10%Z, 32%Z, #0.240120197096563e28);
     (10%Z, 36%Z, #(-0.393847464679496e30));
     (14%Z, 22%Z, #0.147073407024852e25);
     (18%Z, 28%Z, #(-0.426391250432059e32));
     (20%Z, 36%Z, #0.194509340621077e39);
     (22%Z, 16%Z, #0.666212132114896e24);
     (22%Z, 28%Z, #0.706777016552858e34);
     (24%Z, 36%Z, #0.175563621975576e42);
     (28%Z, 16%Z, #0.108408607429124e29);
     (28%Z, 36%Z, #0.730872705175151e44);
     (32%Z, 10%Z, #0.159145847398870e25);
     (32%Z, 28%Z, #0.377121605943324e41)].

(* src/r3/region3_p_hs.rs:12-52 *)
Definition hs2p3a_reg3 (h : num) (s : num) : num :=
  let nu := (h / #2300.0) - #1.01 in
  let sigma := (s / #4.4) - #0.75 in
  #99.0 * (poly_powi nu sigma hs2p3a_reg3_IJn).

(* src/r3/region3_p_hs.rs:56-92  IJn *)
Definition hs2p3b_reg3_IJn : list (Z * Z * num) :=
  [((-12)%Z, 2%Z, #0.125244360717979e-12);
     ((-12)%Z, 10%Z, #(-0.126599322553713e-1));
     ((-12)%Z, 12%Z, #0.506878030140626e1);
     ((-12)%Z, 14%Z, #0.317847171154202e2);
     ((-12)%Z, 20%Z, #(-0.391041161399932e6));
     ((-10)%Z, 2%Z, #(-0.975733406392044e-10));
     ((-10)%Z, 10%Z, #(-0.186312419488279e2));
     ((-10)%Z, 14%Z, #0.510973543414101e3);
     ((-10)%Z, 18%Z, #0.373847005822362e6);
     ((-8)%Z, 2%Z, #0.299804024666572e-7);
     ((-8)%Z, 8%Z, #0.200544393820342e2);
     ((-6)%Z, 2%Z, #(-0.498030487662829e-5));
     ((-6)%Z, 6%Z, #(-0.102301806360030e2));
     ((-6)%Z, 7%Z, #0.552819126990325e2);
     ((-6)%Z, 8%Z, #(-0.206211367510878e3));
     ((-5)%Z, 10%Z, #(-0.794012232324823e4));
     ((-4)%Z, 4%Z, #0.782248472028153e1);
     ((-4)%Z, 5%Z, #(-0.586544326902468e2));
     ((-4)%Z, 8%Z, #0.355073647696481e4);
     ((-3)%Z, 1%Z, #(-0.115303107290162e-3));
     ((-3)%Z, 3%Z, #(-0.175092403171802e1));
     ((-3)%Z, 5%Z, #0.257981687748160e3);
     ((-3)%Z, 6%Z, #(-0.727048374179467e3));
     ((-2)%Z, 0%Z, #0.121644822609198e-3);
     ((-2)%Z, 1%Z, #0.393137871762692e-1);
     ((-1)%Z, 0%Z, #0.704181005909296e-2);
     (0%Z, 3%Z, #(-0.829108200698110e2));
     (2%Z, 0%Z, #(-0.265178818131250));
     (2%Z, 1%Z, #0.137531682453991e2);
     (5%Z, 0%Z, #(-0.522394090753046e2));
     (6%Z, 1%Z, #0.240556298941048e4);
     (8%Z, 1%Z, #(-0.227361631268929e5));
     (10%Z, 1%Z, #0.890746343932567e5);
     (14%Z, 3%Z, #(-0.239234565822486e8));
     (14%Z, 7%Z, #0.568795808129714e10)].

(* src/r3/region3_p_hs.rs:55-97 *)
Definition hs2p3b_reg3 (h : num) (s : num) : num :=
  let nu := (h / #2800.0) - #0.681 in
  let sigma := (s / #5.3) - #0.792 in
  #16.6 / (poly_powi nu sigma hs2p3b_reg3_IJn).

(* src/r3/region3_p_hs.rs:100-106 *)
Definition hs2p_reg3 (h : num) (s : num) : num :=
  if s <=? SC_WATER then
    hs2p3a_reg3 h s
  else 
    hs2p3b_reg3 h s.

(* src/r3/region3_pair_ext.rs:11-18 *)
Definition pv2T_reg3 (p : num) (v : num) : num :=
  let T1 := T_MIN3 in
  let T2 := B23_p2T p in
  let d := #1.0 / v in
  let f1 := p - (Td2p_reg3 T1 d) in
  let f2 := p - (Td2p_reg3 T2 d) in
  rtsec1 Td2p_reg3 d p T1 T2 f1 f2 ESP I_MAX.

(* src/r3/region3_pair_ext.rs:21-29 *)
Definition Th2d_reg3 (T : num) (h : num) : num :=
  let p1 := B23_T2p T in
  let d1 := #1.0 / (pT2v_reg3 p1 T) in
  let p2 := P_MAX3 in
  let d2 := #1.0 / (pT2v_reg3 p2 T) in
  let f1 := h - (Td2h_reg3 T d1) in
  let f2 := h - (Td2h_reg3 T d2) in
  rtsec2 Td2h_reg3 T h d1 d2 f1 f2 ESP I_MAX.

(* src/r3/region3_pair_ext.rs:35-41 *)
Definition Ts2d_reg3 (T : num) (s : num) : num :=
  let d1 := #100.0 in
  let d2 := #1.1 * d1 in
  let ft := s - (Td2s_reg3 T d1) in
  let f := s - (Td2s_reg3 T d2) in
  rtsec2 Td2s_reg3 T s d1 d2 ft f ESP I_MAX.

(* src/r3/region3.rs:22-34 *)
Definition Td_thermal_reg3 (T : num) (d : num) (o_id : Z) : num :=
  if Z.eqb o_id OV then
    #1.0 / d
  else if Z.eqb o_id OP then
    Td2p_reg3 T d
  else if Z.eqb o_id OH then
    Td2h_reg3 T d
  else if Z.eqb o_id OS then
    Td2s_reg3 T d
  else if Z.eqb o_id OU then
    Td2u_reg3 T d
  else if Z.eqb o_id OCV then
    Td2cv_reg3 T d
  else if Z.eqb o_id OCP then
    Td2cp_reg3 T d
  else if Z.eqb o_id OW then
    Td2w_reg3 T d
  else 
    Td_ext_reg3 T d o_id.

(* src/r3/region3.rs:14-19 *)
Definition Td_reg3 (T : num) (d : num) (o_id : Z) : num :=
  if ((((((Z.eqb o_id OST) || (Z.eqb o_id ODV)) || (Z.eqb o_id OKV)) || (Z.eqb o_id OTC)) || (Z.eqb o_id OSDC)) || (Z.eqb o_id OPR)) || (Z.eqb o_id OTD) then
    pair_transport_reg T d o_id PAIRS_Td Td_thermal_reg3
  else 
    Td_thermal_reg3 T d o_id.

(* src/r3/region3.rs:36-38 *)
Definition td_reg3 (t : num) (d : num) (o_id : Z) : num :=
  Td_reg3 (t + K) d o_id.

(* src/r3/region3.rs:40-50 *)
Definition pT_reg3 (p : num) (T : num) (o_id : Z) : num :=
  let v := pT2v_reg3 p T in
  if Z.eqb o_id OV then
    v
  else 
  let d := #1.0 / v in
  if Z.eqb o_id OD then
    d
  else 
  Td_reg3 T d o_id.

(* src/r3/region3.rs:52-55 *)
Definition pt_reg3 (p : num) (t : num) (o_id : Z) : num :=
  let T := t + #273.15 in
  pT_reg3 p T o_id.

(* src/r3/region3.rs:57-71 *)
Definition ph_reg3 (p : num) (h : num) (o_id : Z) : num :=
  let v := ph2v_reg3 p h in
  if Z.eqb o_id OV then
    v
  else 
  let d := #1.0 / v in
  if Z.eqb o_id OD then
    d
  else 
  let T := ph2T_reg3 p h in
  if Z.eqb o_id OT then
    T - K
  else 
  Td_reg3 T d o_id.

(* src/r3/region3.rs:73-87 *)
Definition ps_reg3 (p : num) (s : num) (o_id : Z) : num :=
  let v := ps2v_reg3 p s in
  if Z.eqb o_id OV then
    v
  else 
  let d := #1.0 / v in
  if Z.eqb o_id OD then
    d
  else 
  let T := ps2T_reg3 p s in
  if Z.eqb o_id OT then
    T - K
  else 
  Td_reg3 T d o_id.

(* src/r3/region3.rs:89-107 *)
Definition hs_reg3 (h : num) (s : num) (o_id : Z) : num :=
  let p := hs2p_reg3 h s in
  if Z.eqb o_id OP then
    p
  else 
  let T := ph2T_reg3 p h in
  if Z.eqb o_id OT then
    T - #273.15
  else 
  let v := ph2v_reg3 p h in
  if Z.eqb o_id OV then
    v
  else 
  let d := #1.0 / v in
  if Z.eqb o_id OD then
    d
  else 
  Td_reg3 T d o_id.

(* src/r3/region3.rs:113-123 *)
Definition pv_reg3 (p : num) (v : num) (o_id : Z) : num :=
  let d := #1.0 / v in
  if Z.eqb o_id OD then
    d
  else 
  let T := pv2T_reg3 p v in
  if Z.eqb o_id OT then
    T - K
  else 
  Td_reg3 T d o_id.

(* src/r3/region3.rs:126-132 *)
Definition tv_reg3 (t : num) (v : num) (o_id : Z) : num :=
  let d := #1.0 / v in
  if Z.eqb o_id OD then
    d
  else 
  Td_reg3 (t + K) d o_id.

(* src/r3/region3.rs:135-144 *)
Definition th_reg3 (t : num) (h : num) (o_id : Z) : num :=
  let d := Th2d_reg3 (t + #273.15) h in
  if Z.eqb o_id OD then
    d
  else 
  if Z.eqb o_id OV then
    #1.0 / d
  else 
  Td_reg3 (t + K) d o_id.

(* src/r3/region3.rs:147-156 *)
Definition ts_reg3 (t : num) (s : num) (o_id : Z) : num :=
  let d := Ts2d_reg3 (t + #273.15) s in
  if Z.eqb o_id OD then
    d
  else 
  if Z.eqb o_id OV then
    #1.0 / d
  else 
  Td_reg3 (t + K) d o_id.

End Model.
