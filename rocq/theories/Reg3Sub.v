(* Generated by tools/rs2v.py from src/r3/region3_v_subregion_pT.rs.
   Every definition cites the source lines it models; see tools/rs2v.py for the
   translation rules (mutable variables become let-rebinding, match on constants
   becomes an if-chain in source order, for loops over ranges become fold_left). *)
From Coq Require Import ZArith List Bool String.
From Verif Require Import Num Types Algo Constant.
Import ListNotations.
Open Scope num_scope.

Section Model.
Context {N : Arith}.

(* src/r3/region3_v_subregion_pT.rs:18-23 *)
Definition pT2v_sum (p : num) (T : num) (IJn : list (Z * Z * num)) (d : para) : num :=
  let p1 := powf ((p / (para_PS d)) - (para_a d)) (para_c d) in
  let t1 := powf ((T / (para_TS d)) - (para_b d)) (para_d d) in
  let v := poly_powi p1 t1 IJn in
  (powf v (para_e d)) * (para_VS d).

(* src/r3/region3_v_subregion_pT.rs:26-31 *)
Definition pT2v_sum_steps (p : num) (T : num) (IJn : list (Z * Z * num)) (d : para) (steps : list (nat * nat)) : num :=
  let p1 := powf ((p / (para_PS d)) - (para_a d)) (para_c d) in
  let t1 := powf ((T / (para_TS d)) - (para_b d)) (para_d d) in
  let v := poly_powi_steps p1 t1 IJn steps in
  (powf v (para_e d)) * (para_VS d).

(* src/r3/region3_v_subregion_pT.rs:34-65  IJn *)
Definition pT2v_3a_IJn : list (Z * Z * num) :=
  [((-12)%Z, 5%Z, #0.110879558823853e-2);
     ((-12)%Z, 10%Z, #0.572616740810616e3);
     ((-12)%Z, 12%Z, #(-0.767051948380852e5));
     ((-10)%Z, 5%Z, #(-0.253321069529674e-1));
     ((-10)%Z, 10%Z, #0.628008049345689e4);
     ((-10)%Z, 12%Z, #0.234105654131876e6);
     ((-8)%Z, 5%Z, #0.216867826045856);
     ((-8)%Z, 8%Z, #(-0.156237904341963e3));
     ((-8)%Z, 10%Z, #(-0.269893956176613e5));
     ((-6)%Z, 1%Z, #(-0.180407100085505e-3));
     ((-5)%Z, 1%Z, #0.116732227668261e-2);
     ((-5)%Z, 5%Z, #0.266987040856040e2);
     ((-5)%Z, 10%Z, #0.282776617243286e5);
     ((-4)%Z, 8%Z, #(-0.242431520029523e4));
     ((-3)%Z, 0%Z, #0.435217323022733e-3);
     ((-3)%Z, 1%Z, #(-0.122494831387441e-1));
     ((-3)%Z, 3%Z, #0.179357604019989e1);
     ((-3)%Z, 6%Z, #0.442729521058314e2);
     ((-2)%Z, 0%Z, #(-0.593223489018342e-2));
     ((-2)%Z, 2%Z, #0.453186261685774);
     ((-2)%Z, 3%Z, #0.135825703129140e1);
     ((-1)%Z, 0%Z, #0.408748415856745e-1);
     ((-1)%Z, 1%Z, #0.474686397863312);
     ((-1)%Z, 2%Z, #0.118646814997915e1);
     (0%Z, 0%Z, #0.546987265727549);
     (0%Z, 1%Z, #0.195266770452643);
     (1%Z, 0%Z, #(-0.502268790869663e-1));
     (1%Z, 2%Z, #(-0.369645308193377));
     (2%Z, 0%Z, #0.633828037528420e-2);
     (2%Z, 2%Z, #0.797441793901017e-1)].

(* src/r3/region3_v_subregion_pT.rs:33-70 *)
Definition pT2v_3a (p : num) (T : num) : num :=
  let d := mk_para (#100.0) (#760.0) (#0.0024) (#0.085) (#0.817) (#1.0) (#1.0) (#1.0) in
  pT2v_sum p T pT2v_3a_IJn d.

(* src/r3/region3_v_subregion_pT.rs:73-106  IJn *)
Definition pT2v_3b_IJn : list (Z * Z * num) :=
  [((-12)%Z, 10%Z, #(-0.827670470003621e-1));
     ((-12)%Z, 12%Z, #0.416887126010565e2);
     ((-10)%Z, 8%Z, #0.483651982197059e-1);
     ((-10)%Z, 14%Z, #(-0.291032084950276e5));
     ((-8)%Z, 8%Z, #(-0.111422582236948e3));
     ((-6)%Z, 5%Z, #(-0.202300083904014e-1));
     ((-6)%Z, 6%Z, #0.294002509338515e3);
     ((-6)%Z, 8%Z, #0.140244997609658e3);
     ((-5)%Z, 5%Z, #(-0.344384158811459e3));
     ((-5)%Z, 8%Z, #0.361182452612149e3);
     ((-5)%Z, 10%Z, #(-0.140699677420738e4));
     ((-4)%Z, 2%Z, #(-0.202023902676481e-2));
     ((-4)%Z, 4%Z, #0.171346792457471e3);
     ((-4)%Z, 5%Z, #(-0.425597804058632e1));
     ((-3)%Z, 0%Z, #0.691346085000334e-5);
     ((-3)%Z, 1%Z, #0.151140509678925e-2);
     ((-3)%Z, 2%Z, #(-0.416375290166236e-1));
     ((-3)%Z, 3%Z, #(-0.413754957011042e2));
     ((-3)%Z, 5%Z, #(-0.506673295721637e2));
     ((-2)%Z, 0%Z, #(-0.572212965569023e-3));
     ((-2)%Z, 2%Z, #0.608817368401785e1);
     ((-2)%Z, 5%Z, #0.239600660256161e2);
     ((-1)%Z, 0%Z, #0.122261479925384e-1);
     ((-1)%Z, 2%Z, #0.216356057692938e1);
     (0%Z, 0%Z, #0.398198903368642);
     (0%Z, 1%Z, #(-0.116892827834085));
     (1%Z, 0%Z, #(-0.102845919373532));
     (1%Z, 2%Z, #(-0.492676637589284));
     (2%Z, 0%Z, #0.655540456406790e-1);
     (3%Z, 2%Z, #(-0.240462535078530));
     (4%Z, 0%Z, #(-0.269798180310075e-1));
     (4%Z, 1%Z, #0.128369435967012)].

(* src/r3/region3_v_subregion_pT.rs:72-111 *)
Definition pT2v_3b (p : num) (T : num) : num :=
  let d := mk_para (#100.0) (#860.0) (#0.0041) (#0.280) (#0.779) (#1.0) (#1.0) (#1.0) in
  pT2v_sum p T pT2v_3b_IJn d.

(* src/r3/region3_v_subregion_pT.rs:114-150  IJn *)
Definition pT2v_3c_IJn : list (Z * Z * num) :=
  [((-12)%Z, 6%Z, #3.11967788763030);
     ((-12)%Z, 8%Z, #2.76713458847564e+04);
     ((-12)%Z, 10%Z, #3.22583103403269e+07);
     ((-10)%Z, 6%Z, #(-3.42416065095363e+02));
     ((-10)%Z, 8%Z, #(-8.99732529907377e+05));
     ((-10)%Z, 10%Z, #(-7.93892049821251e+07));
     ((-8)%Z, 5%Z, #9.53193003217388e+01);
     ((-8)%Z, 6%Z, #2.29784742345072e+03);
     ((-8)%Z, 7%Z, #1.75336675322499e+05);
     ((-6)%Z, 8%Z, #7.91214365222792e+06);
     ((-5)%Z, 1%Z, #3.19933345844209e-05);
     ((-5)%Z, 4%Z, #(-6.59508863555767e+01));
     ((-5)%Z, 7%Z, #(-8.33426563212851e+05));
     ((-4)%Z, 2%Z, #6.45734680583292e-02);
     ((-4)%Z, 8%Z, #(-3.82031020570813e+06));
     ((-3)%Z, 0%Z, #4.06398848470079e-05);
     ((-3)%Z, 3%Z, #3.10327498492008e+01);
     ((-2)%Z, 0%Z, #(-8.92996718483724e-04));
     ((-2)%Z, 4%Z, #2.34604891591616e+02);
     ((-2)%Z, 5%Z, #3.77515668966951e+03);
     ((-1)%Z, 0%Z, #1.58646812591361e-02);
     ((-1)%Z, 1%Z, #7.07906336241843e-01);
     ((-1)%Z, 2%Z, #1.26016225146570e+01);
     (0%Z, 0%Z, #7.36143655772152e-01);
     (0%Z, 1%Z, #6.76544268999101e-01);
     (0%Z, 2%Z, #(-1.78100588189137e+01));
     (1%Z, 0%Z, #(-1.56531975531713e-01));
     (1%Z, 2%Z, #1.17707430048158e+01);
     (2%Z, 0%Z, #8.40143653860447e-02);
     (2%Z, 1%Z, #(-1.86442467471949e-01));
     (2%Z, 3%Z, #(-4.40170203949645e+01));
     (2%Z, 7%Z, #1.23290423502494e+06);
     (3%Z, 0%Z, #(-2.40650039730845e-02));
     (3%Z, 7%Z, #(-1.07077716660869e+06));
     (8%Z, 1%Z, #4.38319858566475e-02)].

(* src/r3/region3_v_subregion_pT.rs:113-156 *)
Definition pT2v_3c (p : num) (T : num) : num :=
  let d := mk_para (#40.0) (#690.0) (#0.0022) (#0.259) (#0.903) (#1.0) (#1.0) (#1.0) in
  pT2v_sum p T pT2v_3c_IJn d.

(* src/r3/region3_v_subregion_pT.rs:159-198  IJn *)
Definition pT2v_3d_IJn : list (Z * Z * num) :=
  [((-12)%Z, 4%Z, #(-4.52484847171645e-10));
     ((-12)%Z, 6%Z, #3.15210389538801e-05);
     ((-12)%Z, 7%Z, #(-2.14991352047545e-03));
     ((-12)%Z, 10%Z, #5.08058874808345e+02);
     ((-12)%Z, 12%Z, #(-1.27123036845932e+07));
     ((-12)%Z, 16%Z, #1.15371133120497e+12);
     ((-10)%Z, 0%Z, #(-1.97805728776273e-16));
     ((-10)%Z, 2%Z, #2.41554806033972e-11);
     ((-10)%Z, 4%Z, #(-1.56481703640525e-06));
     ((-10)%Z, 6%Z, #2.77211346836625e-03);
     ((-10)%Z, 8%Z, #(-2.03578994462286e+01));
     ((-10)%Z, 10%Z, #1.44369489909053e+06);
     ((-10)%Z, 14%Z, #(-4.11254217946539e+10));
     ((-8)%Z, 3%Z, #6.23449786243773e-06);
     ((-8)%Z, 7%Z, #(-2.21774281146038e+01));
     ((-8)%Z, 8%Z, #(-6.89315087933158e+04));
     ((-8)%Z, 10%Z, #(-1.95419525060713e+07));
     ((-6)%Z, 6%Z, #3.16373510564015e+03);
     ((-6)%Z, 8%Z, #2.24040754426988e+06);
     ((-5)%Z, 1%Z, #(-4.36701347922356e-06));
     ((-5)%Z, 2%Z, #(-4.04213852833996e-04));
     ((-5)%Z, 5%Z, #(-3.48153203414663e+02));
     ((-5)%Z, 7%Z, #(-3.85294213555289e+05));
     ((-4)%Z, 0%Z, #1.35203700099403e-07);
     ((-4)%Z, 1%Z, #1.34648383271089e-04);
     ((-4)%Z, 7%Z, #1.25031835351736e+05);
     ((-3)%Z, 2%Z, #9.68123678455841e-02);
     ((-3)%Z, 4%Z, #2.25660517512438e+02);
     ((-2)%Z, 0%Z, #(-1.90102435341872e-04));
     ((-2)%Z, 1%Z, #(-2.99628410819229e-02));
     ((-1)%Z, 0%Z, #5.00833915372121e-03);
     ((-1)%Z, 1%Z, #3.87842482998411e-01);
     ((-1)%Z, 5%Z, #(-1.38535367777182e+03));
     (0%Z, 0%Z, #8.70745245971773e-01);
     (0%Z, 2%Z, #1.71946252068742);
     (1%Z, 0%Z, #(-3.26650121426383e-02));
     (1%Z, 6%Z, #4.98044171727877e+03);
     (3%Z, 0%Z, #5.51478022765087e-03)].

(* src/r3/region3_v_subregion_pT.rs:158-204 *)
Definition pT2v_3d (p : num) (T : num) : num :=
  let d := mk_para (#40.0) (#690.0) (#0.0029) (#0.559) (#0.939) (#1.0) (#1.0) (#4.0) in
  let steps := [(0%nat, 17%nat); (17%nat, 38%nat)] in
  pT2v_sum_steps p T pT2v_3d_IJn d steps.

(* src/r3/region3_v_subregion_pT.rs:207-237  IJn *)
Definition pT2v_3e_IJn : list (Z * Z * num) :=
  [((-12)%Z, 14%Z, #7.15815808404721e+08);
     ((-12)%Z, 16%Z, #(-1.14328360753449e+11));
     ((-10)%Z, 3%Z, #3.76531002015720e-12);
     ((-10)%Z, 6%Z, #(-9.03983668691157e-05));
     ((-10)%Z, 10%Z, #6.65695908836252e+05);
     ((-10)%Z, 14%Z, #5.35364174960127e+09);
     ((-10)%Z, 16%Z, #7.94977402335603e+10);
     ((-8)%Z, 7%Z, #9.22230563421437e+01);
     ((-8)%Z, 8%Z, #(-1.42586073991215e+05));
     ((-8)%Z, 10%Z, #(-1.11796381424162e+06));
     ((-6)%Z, 6%Z, #8.96121629640760e+03);
     ((-5)%Z, 6%Z, #(-6.69989239070491e+03));
     ((-4)%Z, 2%Z, #4.51242538486834e-03);
     ((-4)%Z, 4%Z, #(-3.39731325977713e+01));
     ((-3)%Z, 2%Z, #(-1.20523111552278));
     ((-3)%Z, 6%Z, #4.75992667717124e+04);
     ((-3)%Z, 7%Z, #(-2.66627750390341e+05));
     ((-2)%Z, 0%Z, #(-1.53314954386524e-04));
     ((-2)%Z, 1%Z, #3.05638404828265e-01);
     ((-2)%Z, 3%Z, #1.23654999499486e+02);
     ((-2)%Z, 4%Z, #(-1.04390794213011e+03));
     ((-1)%Z, 0%Z, #(-1.57496516174308e-02));
     (0%Z, 0%Z, #6.85331118940253e-01);
     (0%Z, 1%Z, #1.78373462873903);
     (1%Z, 0%Z, #(-5.44674124878910e-01));
     (1%Z, 4%Z, #2.04529931318843e+03);
     (1%Z, 6%Z, #(-2.28342359328752e+04));
     (2%Z, 0%Z, #4.13197481515899e-01);
     (2%Z, 2%Z, #(-3.41931835910405e+01))].

(* src/r3/region3_v_subregion_pT.rs:206-242 *)
Definition pT2v_3e (p : num) (T : num) : num :=
  let d := mk_para (#40.0) (#710.0) (#0.0032) (#0.587) (#0.918) (#1.0) (#1.0) (#1.0) in
  pT2v_sum p T pT2v_3e_IJn d.

(* src/r3/region3_v_subregion_pT.rs:245-288  IJn *)
Definition pT2v_3f_IJn : list (Z * Z * num) :=
  [(0%Z, (-3)%Z, #(-2.51756547792325e-08));
     (0%Z, (-2)%Z, #6.01307193668763e-06);
     (0%Z, (-1)%Z, #(-1.00615977450049e-03));
     (0%Z, 0%Z, #9.99969140252192e-01);
     (0%Z, 1%Z, #2.14107759236486);
     (0%Z, 2%Z, #(-1.65175571959086e+01));
     (1%Z, (-1)%Z, #(-1.41987303638727e-03));
     (1%Z, 1%Z, #2.69251915156554);
     (1%Z, 2%Z, #3.49741815858722e+01);
     (1%Z, 3%Z, #(-3.00208695771783e+01));
     (2%Z, 0%Z, #(-1.31546288252539));
     (2%Z, 1%Z, #(-8.39091277286169));
     (3%Z, (-5)%Z, #1.81545608337015e-10);
     (3%Z, (-2)%Z, #(-5.91099206478909e-04));
     (3%Z, 0%Z, #1.52115067087106);
     (4%Z, (-3)%Z, #2.52956470663225e-05);
     (5%Z, (-8)%Z, #1.00726265203786e-15);
     (5%Z, 1%Z, #(-1.49774533860650));
     (6%Z, (-6)%Z, #(-7.93940970562969e-10));
     (7%Z, (-4)%Z, #(-1.50290891264717e-04));
     (7%Z, 1%Z, #1.51205531275133);
     (10%Z, (-6)%Z, #4.70942606221652e-06);
     (12%Z, (-10)%Z, #1.95049710391712e-13);
     (12%Z, (-8)%Z, #(-9.11627886266077e-09));
     (12%Z, (-4)%Z, #6.04374640201265e-04);
     (14%Z, (-12)%Z, #(-2.25132933900136e-16));
     (14%Z, (-10)%Z, #6.10916973582981e-12);
     (14%Z, (-8)%Z, #(-3.03063908043404e-07));
     (14%Z, (-6)%Z, #(-1.37796070798409e-05));
     (14%Z, (-4)%Z, #(-9.19296736666106e-04));
     (16%Z, (-10)%Z, #6.39288223132545e-10);
     (16%Z, (-8)%Z, #7.53259479898699e-07);
     (18%Z, (-12)%Z, #(-4.00321478682929e-13));
     (18%Z, (-10)%Z, #7.56140294351614e-09);
     (20%Z, (-12)%Z, #(-9.12082054034891e-12));
     (20%Z, (-10)%Z, #(-2.37612381140539e-08));
     (20%Z, (-6)%Z, #2.69586010591874e-05);
     (22%Z, (-12)%Z, #(-7.32828135157839e-11));
     (24%Z, (-12)%Z, #2.41995578306660e-10);
     (24%Z, (-4)%Z, #(-4.05735532730322e-04));
     (28%Z, (-12)%Z, #1.89424143498011e-10);
     (32%Z, (-12)%Z, #(-4.86632965074563e-10))].

(* src/r3/region3_v_subregion_pT.rs:244-294 *)
Definition pT2v_3f (p : num) (T : num) : num :=
  let d := mk_para (#40.0) (#730.0) (#0.0064) (#0.587) (#0.891) (#0.5) (#1.0) (#4.0) in
  let steps := [(0%nat, 17%nat); (17%nat, 30%nat); (30%nat, 42%nat)] in
  pT2v_sum_steps p T pT2v_3f_IJn d steps.

(* src/r3/region3_v_subregion_pT.rs:297-336  IJn *)
Definition pT2v_3g_IJn : list (Z * Z * num) :=
  [((-12)%Z, 7%Z, #4.12209020652996e-05);
     ((-12)%Z, 12%Z, #(-1.14987238280587e+06));
     ((-12)%Z, 14%Z, #9.48180885032080e+09);
     ((-12)%Z, 18%Z, #(-1.95788865718971e+17));
     ((-12)%Z, 22%Z, #4.96250704871300e+24);
     ((-12)%Z, 24%Z, #(-1.05549884548496e+28));
     ((-10)%Z, 14%Z, #(-7.58642165988278e+11));
     ((-10)%Z, 20%Z, #(-9.22172769596101e+22));
     ((-10)%Z, 24%Z, #7.25379072059348e+29);
     ((-8)%Z, 7%Z, #(-6.17718249205859e+01));
     ((-8)%Z, 8%Z, #1.07555033344858e+04);
     ((-8)%Z, 10%Z, #(-3.79545802336487e+07));
     ((-8)%Z, 12%Z, #2.28646846221831e+11);
     ((-6)%Z, 8%Z, #(-4.99741093010619e+06));
     ((-6)%Z, 22%Z, #(-2.80214310054101e+30));
     ((-5)%Z, 7%Z, #1.04915406769586e+06);
     ((-5)%Z, 20%Z, #6.13754229168619e+27);
     ((-4)%Z, 22%Z, #8.02056715528378e+31);
     ((-3)%Z, 7%Z, #(-2.98617819828065e+07));
     ((-2)%Z, 3%Z, #(-9.10782540134681e+01));
     ((-2)%Z, 5%Z, #1.35033227281565e+05);
     ((-2)%Z, 14%Z, #(-7.12949383408211e+18));
     ((-2)%Z, 24%Z, #(-1.04578785289542e+36));
     ((-1)%Z, 2%Z, #3.04331584444093e+01);
     ((-1)%Z, 8%Z, #5.93250797959445e+09);
     ((-1)%Z, 18%Z, #(-3.64174062110798e+27));
     (0%Z, 0%Z, #9.21791403532461e-01);
     (0%Z, 1%Z, #(-3.37693609657471e-01));
     (0%Z, 2%Z, #(-7.24644143758508e+01));
     (1%Z, 0%Z, #(-1.10480239272601e-01));
     (1%Z, 1%Z, #5.36516031875059);
     (1%Z, 3%Z, #(-2.91441872156205e+03));
     (3%Z, 24%Z, #6.16338176535305e+39);
     (5%Z, 22%Z, #(-1.20889175861180e+38));
     (6%Z, 12%Z, #8.18396024524612e+22);
     (8%Z, 3%Z, #9.40781944835829e+08);
     (10%Z, 0%Z, #(-3.67279669545448e+04));
     (10%Z, 6%Z, #(-8.37513931798655e+15))].

(* src/r3/region3_v_subregion_pT.rs:296-342 *)
Definition pT2v_3g (p : num) (T : num) : num :=
  let d := mk_para (#25.0) (#660.0) (#0.0027) (#0.872) (#0.971) (#1.0) (#1.0) (#4.0) in
  let steps := [(0%nat, 19%nat); (19%nat, 38%nat)] in
  pT2v_sum_steps p T pT2v_3g_IJn d steps.

(* src/r3/region3_v_subregion_pT.rs:345-375  IJn *)
Definition pT2v_3h_IJn : list (Z * Z * num) :=
  [((-12)%Z, 8%Z, #5.61379678887577e-02);
     ((-12)%Z, 12%Z, #7.74135421587083e+09);
     ((-10)%Z, 4%Z, #1.11482975877938e-09);
     ((-10)%Z, 6%Z, #(-1.43987128208183e-03));
     ((-10)%Z, 8%Z, #1.93696558764920e+03);
     ((-10)%Z, 10%Z, #(-6.05971823585005e+08));
     ((-10)%Z, 14%Z, #1.71951568124337e+13);
     ((-10)%Z, 16%Z, #(-1.85461154985145e+16));
     ((-8)%Z, 0%Z, #3.87851168078010e-17);
     ((-8)%Z, 1%Z, #(-3.95464327846105e-14));
     ((-8)%Z, 6%Z, #(-1.70875935679023e+02));
     ((-8)%Z, 7%Z, #(-2.12010620701220e+03));
     ((-8)%Z, 8%Z, #1.77683337348191e+07);
     ((-6)%Z, 4%Z, #1.10177443629575e+01);
     ((-6)%Z, 6%Z, #(-2.34396091693313e+05));
     ((-6)%Z, 8%Z, #(-6.56174421999594e+06));
     ((-5)%Z, 2%Z, #1.56362212977396e-05);
     ((-5)%Z, 3%Z, #(-2.12946257021400));
     ((-5)%Z, 4%Z, #1.35249306374858e+01);
     ((-4)%Z, 2%Z, #1.77189164145813e-01);
     ((-4)%Z, 4%Z, #1.39499167345464e+03);
     ((-3)%Z, 1%Z, #(-7.03670932036388e-03));
     ((-3)%Z, 2%Z, #(-1.52011044389648e-01));
     ((-2)%Z, 0%Z, #9.81916922991113e-05);
     ((-1)%Z, 0%Z, #1.47199658618076e-03);
     ((-1)%Z, 2%Z, #2.02618487025578e+01);
     (0%Z, 0%Z, #8.99345518944240e-01);
     (1%Z, 0%Z, #(-2.11346402240858e-01));
     (1%Z, 2%Z, #2.49971752957491e+01)].

(* src/r3/region3_v_subregion_pT.rs:344-380 *)
Definition pT2v_3h (p : num) (T : num) : num :=
  let d := mk_para (#25.0) (#660.0) (#0.0032) (#0.898) (#0.983) (#1.0) (#1.0) (#4.0) in
  pT2v_sum p T pT2v_3h_IJn d.

(* src/r3/region3_v_subregion_pT.rs:383-426  IJn *)
Definition pT2v_3i_IJn : list (Z * Z * num) :=
  [(0%Z, 0%Z, #1.06905684359136);
     (0%Z, 1%Z, #(-1.48620857922333));
     (0%Z, 10%Z, #2.59862256980408e+14);
     (1%Z, (-4)%Z, #(-4.46352055678749e-12));
     (1%Z, (-2)%Z, #(-5.66620757170032e-07));
     (1%Z, (-1)%Z, #(-2.35302885736849e-03));
     (1%Z, 0%Z, #(-2.69226321968839e-01));
     (2%Z, 0%Z, #9.22024992944392);
     (3%Z, (-5)%Z, #3.57633505503772e-12);
     (3%Z, 0%Z, #(-1.73942565562222e+01));
     (4%Z, (-3)%Z, #7.00681785556229e-06);
     (4%Z, (-2)%Z, #(-2.67050351075768e-04));
     (4%Z, (-1)%Z, #(-2.31779669675624));
     (5%Z, (-6)%Z, #(-7.53533046979752e-13));
     (5%Z, (-1)%Z, #4.81337131452891);
     (5%Z, 12%Z, #(-2.23286270422356e+21));
     (7%Z, (-4)%Z, #(-1.18746004987383e-05));
     (7%Z, (-3)%Z, #6.46412934136496e-03);
     (8%Z, (-6)%Z, #(-4.10588536330937e-10));
     (8%Z, 10%Z, #4.22739537057241e+19);
     (10%Z, (-8)%Z, #3.13698180473812e-13);
     (12%Z, (-12)%Z, #1.64395334345040e-24);
     (12%Z, (-6)%Z, #(-3.39823323754373e-06));
     (12%Z, (-4)%Z, #(-1.35268639905021e-02));
     (14%Z, (-10)%Z, #(-7.23252514211625e-15));
     (14%Z, (-8)%Z, #1.84386437538366e-09);
     (14%Z, (-4)%Z, #(-4.63959533752385e-02));
     (14%Z, 5%Z, #(-9.92263100376750e+13));
     (18%Z, (-12)%Z, #6.88169154439335e-17);
     (18%Z, (-10)%Z, #(-2.22620998452197e-11));
     (18%Z, (-8)%Z, #(-5.40843018624083e-08));
     (18%Z, (-6)%Z, #3.45570606200257e-03);
     (18%Z, 2%Z, #4.22275800304086e+10);
     (20%Z, (-12)%Z, #(-1.26974478770487e-15));
     (20%Z, (-10)%Z, #9.27237985153679e-10);
     (22%Z, (-12)%Z, #6.12670812016489e-14);
     (24%Z, (-12)%Z, #(-7.22693924063497e-12));
     (24%Z, (-8)%Z, #(-3.83669502636822e-04));
     (32%Z, (-10)%Z, #3.74684572410204e-04);
     (32%Z, (-5)%Z, #(-9.31976897511086e+04));
     (36%Z, (-10)%Z, #(-2.47690616026922e-02));
     (36%Z, (-8)%Z, #6.58110546759474e+01)].

(* src/r3/region3_v_subregion_pT.rs:382-432 *)
Definition pT2v_3i (p : num) (T : num) : num :=
  let d := mk_para (#25.0) (#660.0) (#0.0041) (#0.910) (#0.984) (#0.5) (#1.0) (#4.0) in
  let steps := [(0%nat, 17%nat); (17%nat, 30%nat); (30%nat, 42%nat)] in
  pT2v_sum_steps p T pT2v_3i_IJn d steps.

(* src/r3/region3_v_subregion_pT.rs:435-465  IJn *)
Definition pT2v_3j_IJn : list (Z * Z * num) :=
  [(0%Z, (-1)%Z, #(-1.11371317395540e-04));
     (0%Z, 0%Z, #1.00342892423685);
     (0%Z, 1%Z, #5.30615581928979);
     (1%Z, (-2)%Z, #1.79058760078792e-06);
     (1%Z, (-1)%Z, #(-7.28541958464774e-04));
     (1%Z, 1%Z, #(-1.87576133371704e+01));
     (2%Z, (-1)%Z, #1.99060874071849e-03);
     (2%Z, 1%Z, #2.43574755377290e+01);
     (3%Z, (-2)%Z, #(-1.77040785499444e-04));
     (4%Z, (-2)%Z, #(-2.59680385227130e-03));
     (4%Z, 2%Z, #(-1.98704578406823e+02));
     (5%Z, (-3)%Z, #7.38627790224287e-05);
     (5%Z, (-2)%Z, #(-2.36264692844138e-03));
     (5%Z, 0%Z, #(-1.61023121314333));
     (6%Z, 3%Z, #6.22322971786473e+03);
     (10%Z, (-6)%Z, #(-9.60754116701669e-09));
     (12%Z, (-8)%Z, #(-5.10572269720488e-11));
     (12%Z, (-3)%Z, #7.67373781404211e-03);
     (14%Z, (-10)%Z, #6.63855469485254e-15);
     (14%Z, (-8)%Z, #(-7.17590735526745e-10));
     (14%Z, (-5)%Z, #1.46564542926508e-05);
     (16%Z, (-10)%Z, #3.09029474277013e-12);
     (18%Z, (-12)%Z, #(-4.64216300971708e-16));
     (20%Z, (-12)%Z, #(-3.90499637961161e-14));
     (20%Z, (-10)%Z, #(-2.36716126781431e-10));
     (24%Z, (-12)%Z, #4.54652854268717e-12);
     (24%Z, (-6)%Z, #(-4.22271787482497e-03));
     (28%Z, (-12)%Z, #2.83911742354706e-11);
     (28%Z, (-5)%Z, #2.70929002720228)].

(* src/r3/region3_v_subregion_pT.rs:434-470 *)
Definition pT2v_3j (p : num) (T : num) : num :=
  let d := mk_para (#25.0) (#670.0) (#0.0054) (#0.875) (#0.964) (#0.5) (#1.0) (#4.0) in
  pT2v_sum p T pT2v_3j_IJn d.

(* src/r3/region3_v_subregion_pT.rs:473-508  IJn *)
Definition pT2v_3k_IJn : list (Z * Z * num) :=
  [((-2)%Z, 10%Z, #(-4.01215699576099e+08));
     ((-2)%Z, 12%Z, #4.84501478318406e+10);
     ((-1)%Z, (-5)%Z, #3.94721471363678e-15);
     ((-1)%Z, 6%Z, #3.72629967374147e+04);
     (0%Z, (-12)%Z, #(-3.69794374168666e-30));
     (0%Z, (-6)%Z, #(-3.80436407012452e-15));
     (0%Z, (-2)%Z, #4.75361629970233e-07);
     (0%Z, (-1)%Z, #(-8.79148916140706e-04));
     (0%Z, 0%Z, #8.44317863844331e-01);
     (0%Z, 1%Z, #1.22433162656600e+01);
     (0%Z, 2%Z, #(-1.04529634830279e+02));
     (0%Z, 3%Z, #5.89702771277429e+02);
     (0%Z, 14%Z, #(-2.91026851164444e+13));
     (1%Z, (-3)%Z, #1.70343072841850e-06);
     (1%Z, (-2)%Z, #(-2.77617606975748e-04));
     (1%Z, 0%Z, #(-3.44709605486686));
     (1%Z, 1%Z, #2.21333862447095e+01);
     (1%Z, 2%Z, #(-1.94646110037079e+02));
     (2%Z, (-8)%Z, #8.08354639772825e-16);
     (2%Z, (-6)%Z, #(-1.80845209145470e-11));
     (2%Z, (-3)%Z, #(-6.96664158132412e-06));
     (2%Z, (-2)%Z, #(-1.81057560300994e-03));
     (2%Z, 0%Z, #2.55830298579027);
     (2%Z, 4%Z, #3.28913873658481e+03);
     (5%Z, (-12)%Z, #(-1.73270241249904e-19));
     (5%Z, (-6)%Z, #(-6.61876792558034e-07));
     (5%Z, (-3)%Z, #(-3.95688923421250e-03));
     (6%Z, (-12)%Z, #6.04203299819132e-18);
     (6%Z, (-10)%Z, #(-4.00879935920517e-14));
     (6%Z, (-8)%Z, #1.60751107464958e-09);
     (6%Z, (-5)%Z, #3.83719409025556e-05);
     (8%Z, (-12)%Z, #(-6.49565446702457e-15));
     (10%Z, (-12)%Z, #(-1.49095328506000e-12));
     (12%Z, (-10)%Z, #5.41449377329581e-09)].

(* src/r3/region3_v_subregion_pT.rs:472-513 *)
Definition pT2v_3k (p : num) (T : num) : num :=
  let d := mk_para (#25.0) (#680.0) (#0.0077) (#0.802) (#0.935) (#1.0) (#1.0) (#1.0) in
  pT2v_sum p T pT2v_3k_IJn d.

(* src/r3/region3_v_subregion_pT.rs:516-560  IJn *)
Definition pT2v_3l_IJn : list (Z * Z * num) :=
  [((-12)%Z, 14%Z, #2.60702058647537e+09);
     ((-12)%Z, 16%Z, #(-1.88277213604704e+14));
     ((-12)%Z, 18%Z, #5.54923870289667e+18);
     ((-12)%Z, 20%Z, #(-7.58966946387758e+22));
     ((-12)%Z, 22%Z, #4.13865186848908e+26);
     ((-10)%Z, 14%Z, #(-8.15038000738060e+11));
     ((-10)%Z, 24%Z, #(-3.81458260489955e+32));
     ((-8)%Z, 6%Z, #(-1.23239564600519e-02));
     ((-8)%Z, 10%Z, #2.26095631437174e+07);
     ((-8)%Z, 12%Z, #(-4.95017809506720e+11));
     ((-8)%Z, 14%Z, #5.29482996422863e+15);
     ((-8)%Z, 18%Z, #(-4.44359478746295e+22));
     ((-8)%Z, 24%Z, #5.21635864527315e+34);
     ((-8)%Z, 36%Z, #(-4.87095672740742e+54));
     ((-6)%Z, 8%Z, #(-7.14430209937547e+05));
     ((-5)%Z, 4%Z, #1.27868634615495e-01);
     ((-5)%Z, 5%Z, #(-1.00752127917598e+01));
     ((-4)%Z, 7%Z, #7.77451437960990e+06);
     ((-4)%Z, 16%Z, #(-1.08105480796471e+24));
     ((-3)%Z, 1%Z, #(-3.57578581169659e-06));
     ((-3)%Z, 3%Z, #(-2.12857169423484));
     ((-3)%Z, 18%Z, #2.70706111085238e+29);
     ((-3)%Z, 20%Z, #(-6.95953622348829e+32));
     ((-2)%Z, 2%Z, #1.10609027472280e-01);
     ((-2)%Z, 3%Z, #7.21559163361354e+01);
     ((-2)%Z, 10%Z, #(-3.06367307532219e+14));
     ((-1)%Z, 0%Z, #2.65839618885530e-05);
     ((-1)%Z, 1%Z, #2.53392392889754e-02);
     ((-1)%Z, 3%Z, #(-2.14443041836579e+02));
     (0%Z, 0%Z, #9.37846601489667e-01);
     (0%Z, 1%Z, #2.23184043101700);
     (0%Z, 2%Z, #3.38401222509191e+01);
     (0%Z, 12%Z, #4.94237237179718e+20);
     (1%Z, 0%Z, #(-1.98068404154428e-01));
     (1%Z, 16%Z, #(-1.41415349881140e+30));
     (2%Z, 1%Z, #(-9.93862421613651e+01));
     (4%Z, 0%Z, #1.25070534142731e+02);
     (5%Z, 0%Z, #(-9.96473529004439e+02));
     (5%Z, 1%Z, #4.73137909872765e+04);
     (6%Z, 14%Z, #1.16662121219322e+32);
     (10%Z, 4%Z, #(-3.15874976271533e+15));
     (10%Z, 12%Z, #(-4.45703369196945e+32));
     (14%Z, 10%Z, #6.42794932373694e+32)].

(* src/r3/region3_v_subregion_pT.rs:515-566 *)
Definition pT2v_3l (p : num) (T : num) : num :=
  let d := mk_para (#24.0) (#650.0) (#0.0026) (#0.908) (#0.989) (#1.0) (#1.0) (#4.0) in
  let steps := [(0%nat, 17%nat); (17%nat, 30%nat); (30%nat, 42%nat)] in
  pT2v_sum_steps p T pT2v_3l_IJn d steps.

(* src/r3/region3_v_subregion_pT.rs:569-610  IJn *)
Definition pT2v_3m_IJn : list (Z * Z * num) :=
  [(0%Z, 0%Z, #8.11384363481847e-01);
     (3%Z, 0%Z, #(-5.68199310990094e+03));
     (8%Z, 0%Z, #(-1.78657198172556e+10));
     (20%Z, 2%Z, #7.95537657613427e+31);
     (1%Z, 5%Z, #(-8.14568209346872e+04));
     (3%Z, 5%Z, #(-6.59774567602874e+07));
     (4%Z, 5%Z, #(-1.52861148659302e+10));
     (5%Z, 5%Z, #(-5.60165667510446e+11));
     (1%Z, 6%Z, #4.58384828593949e+05);
     (6%Z, 6%Z, #(-3.85754000383848e+13));
     (2%Z, 7%Z, #4.53735800004273e+07);
     (4%Z, 8%Z, #9.39454935735563e+11);
     (14%Z, 8%Z, #2.66572856432938e+27);
     (2%Z, 10%Z, #(-5.47578313899097e+09));
     (5%Z, 10%Z, #2.00725701112386e+14);
     (3%Z, 12%Z, #1.85007245563239e+12);
     (0%Z, 14%Z, #1.85135446828337e+08);
     (1%Z, 14%Z, #(-1.70451090076385e+11));
     (1%Z, 18%Z, #1.57890366037614e+14);
     (1%Z, 20%Z, #(-2.02530509748774e+15));
     (28%Z, 20%Z, #3.68193926183570e+59);
     (2%Z, 22%Z, #1.70215539458936e+17);
     (16%Z, 22%Z, #6.39234909918741e+41);
     (0%Z, 24%Z, #(-8.21698160721956e+14));
     (5%Z, 24%Z, #(-7.95260241872306e+23));
     (0%Z, 28%Z, #2.33415869478510e+17);
     (3%Z, 28%Z, #(-6.00079934586803e+22));
     (4%Z, 28%Z, #5.94584382273384e+24);
     (12%Z, 28%Z, #1.89461279349492e+39);
     (16%Z, 28%Z, #(-8.10093428842645e+45));
     (1%Z, 32%Z, #1.88813911076809e+21);
     (8%Z, 32%Z, #1.11052244098768e+35);
     (14%Z, 32%Z, #2.91133958602503e+45);
     (0%Z, 36%Z, #(-3.29421923951460e+21));
     (2%Z, 36%Z, #(-1.37570282536696e+25));
     (3%Z, 36%Z, #1.81508996303902e+27);
     (4%Z, 36%Z, #(-3.46865122768353e+29));
     (8%Z, 36%Z, #(-2.11961148774260e+37));
     (14%Z, 36%Z, #(-1.28617899887675e+48));
     (24%Z, 36%Z, #4.79817895699239e+64)].

(* src/r3/region3_v_subregion_pT.rs:568-616 *)
Definition pT2v_3m (p : num) (T : num) : num :=
  let d := mk_para (#23.0) (#650.0) (#0.0028) (#1.0) (#0.997) (#1.0) (#0.25) (#1.0) in
  let steps := [(0%nat, 17%nat); (17%nat, 40%nat)] in
  pT2v_sum_steps p T pT2v_3m_IJn d steps.

(* src/r3/region3_v_subregion_pT.rs:620-660  IJn *)
Definition pT2v_3n_IJn : list (Z * Z * num) :=
  [(0%Z, (-12)%Z, #2.80967799943151e-39);
     (3%Z, (-12)%Z, #6.14869006573609e-31);
     (4%Z, (-12)%Z, #5.82238667048942e-28);
     (6%Z, (-12)%Z, #3.90628369238462e-23);
     (7%Z, (-12)%Z, #8.21445758255119e-21);
     (10%Z, (-12)%Z, #4.02137961842776e-15);
     (12%Z, (-12)%Z, #6.51718171878301e-13);
     (14%Z, (-12)%Z, #(-2.11773355803058e-08));
     (18%Z, (-12)%Z, #2.64953354380072e-03);
     (0%Z, (-10)%Z, #(-1.35031446451331e-32));
     (3%Z, (-10)%Z, #(-6.07246643970893e-24));
     (5%Z, (-10)%Z, #(-4.02352115234494e-19));
     (6%Z, (-10)%Z, #(-7.44938506925544e-17));
     (8%Z, (-10)%Z, #1.89917206526237e-13);
     (12%Z, (-10)%Z, #3.64975183508473e-06);
     (0%Z, (-8)%Z, #1.77274872361946e-26);
     (3%Z, (-8)%Z, #(-3.34952758812999e-19));
     (7%Z, (-8)%Z, #(-4.21537726098389e-09));
     (12%Z, (-8)%Z, #(-3.91048167929649e-02));
     (2%Z, (-6)%Z, #5.41276911564176e-14);
     (3%Z, (-6)%Z, #7.05412100773699e-12);
     (4%Z, (-6)%Z, #2.58585887897486e-09);
     (2%Z, (-5)%Z, #(-4.93111362030162e-11));
     (4%Z, (-5)%Z, #(-1.58649699894543e-06));
     (7%Z, (-5)%Z, #(-5.25037427886100e-01));
     (4%Z, (-4)%Z, #2.20019901729615e-03);
     (3%Z, (-3)%Z, #(-6.43064132636925e-03));
     (5%Z, (-3)%Z, #6.29154149015048e+01);
     (6%Z, (-3)%Z, #1.35147318617061e+02);
     (0%Z, (-2)%Z, #2.40560808321713e-07);
     (0%Z, (-1)%Z, #(-8.90763306701305e-04));
     (3%Z, (-1)%Z, #(-4.40209599407714e+03));
     (1%Z, 0%Z, #(-3.02807107747776e+02));
     (0%Z, 1%Z, #1.59158748314599e+03);
     (1%Z, 1%Z, #2.32534272709876e+05);
     (0%Z, 2%Z, #(-7.92681207132600e+05));
     (1%Z, 4%Z, #(-8.69871364662769e+10));
     (0%Z, 5%Z, #3.54542769185671e+11);
     (1%Z, 6%Z, #4.00849240129329e+14)].

(* src/r3/region3_v_subregion_pT.rs:618-666 *)
Definition pT2v_3n (p : num) (T : num) : num :=
  let p1 := (p / #23.0) - #0.976 in
  let t1 := (T / #650.0) - #0.997 in
  let steps := [(0%nat, 19%nat); (19%nat, 39%nat)] in
  let v := poly_powi_steps p1 t1 pT2v_3n_IJn steps in
  (nexp v) * #0.0031.

(* src/r3/region3_v_subregion_pT.rs:669-694  IJn *)
Definition pT2v_3o_IJn : list (Z * Z * num) :=
  [(0%Z, (-12)%Z, #1.28746023979718e-35);
     (0%Z, (-4)%Z, #(-7.35234770382342e-12));
     (0%Z, (-1)%Z, #2.89078692149150e-03);
     (2%Z, (-1)%Z, #2.44482731907223e-01);
     (3%Z, (-10)%Z, #1.41733492030985e-24);
     (4%Z, (-12)%Z, #(-3.54533853059476e-29));
     (4%Z, (-8)%Z, #(-5.94539202901431e-18));
     (4%Z, (-5)%Z, #(-5.85188401782779e-09));
     (4%Z, (-4)%Z, #2.01377325411803e-06);
     (4%Z, (-1)%Z, #1.38647388209306);
     (5%Z, (-4)%Z, #(-1.73959365084772e-05));
     (5%Z, (-3)%Z, #1.37680878349369e-03);
     (6%Z, (-8)%Z, #8.14897605805513e-15);
     (7%Z, (-12)%Z, #4.25596631351839e-26);
     (8%Z, (-10)%Z, #(-3.87449113787755e-18));
     (8%Z, (-8)%Z, #1.39814747930240e-13);
     (8%Z, (-4)%Z, #(-1.71849638951521e-03));
     (10%Z, (-12)%Z, #6.41890529513296e-22);
     (10%Z, (-8)%Z, #1.18960578072018e-11);
     (14%Z, (-12)%Z, #(-1.55282762571611e-18));
     (14%Z, (-8)%Z, #2.33907907347507e-08);
     (20%Z, (-12)%Z, #(-1.74093247766213e-13));
     (20%Z, (-10)%Z, #3.77682649089149e-09);
     (24%Z, (-12)%Z, #(-5.16720236575302e-11))].

(* src/r3/region3_v_subregion_pT.rs:668-699 *)
Definition pT2v_3o (p : num) (T : num) : num :=
  let d := mk_para (#23.0) (#650.0) (#0.0034) (#0.974) (#0.996) (#0.5) (#1.0) (#1.0) in
  pT2v_sum p T pT2v_3o_IJn d.

(* src/r3/region3_v_subregion_pT.rs:702-730  IJn *)
Definition pT2v_3p_IJn : list (Z * Z * num) :=
  [(0%Z, (-1)%Z, #(-9.82825342010366e-05));
     (0%Z, 0%Z, #1.05145700850612);
     (0%Z, 1%Z, #1.16033094095084e+02);
     (0%Z, 2%Z, #3.24664750281543e+03);
     (1%Z, 1%Z, #(-1.23592348610137e+03));
     (2%Z, (-1)%Z, #(-5.61403450013495e-02));
     (3%Z, (-3)%Z, #8.56677401640869e-08);
     (3%Z, 0%Z, #2.36313425393924e+02);
     (4%Z, (-2)%Z, #9.72503292350109e-03);
     (6%Z, (-2)%Z, #(-1.03001994531927));
     (7%Z, (-5)%Z, #(-1.49653706199162e-09));
     (7%Z, (-4)%Z, #(-2.15743778861592e-05));
     (8%Z, (-2)%Z, #(-8.34452198291445));
     (10%Z, (-3)%Z, #5.86602660564988e-01);
     (12%Z, (-12)%Z, #3.43480022104968e-26);
     (12%Z, (-6)%Z, #8.16256095947021e-06);
     (12%Z, (-5)%Z, #2.94985697916798e-03);
     (14%Z, (-10)%Z, #7.11730466276584e-17);
     (14%Z, (-8)%Z, #4.00954763806941e-10);
     (14%Z, (-3)%Z, #1.07766027032853e+01);
     (16%Z, (-8)%Z, #(-4.09449599138182e-07));
     (18%Z, (-8)%Z, #(-7.29121307758902e-06));
     (20%Z, (-10)%Z, #6.77107970938909e-09);
     (22%Z, (-10)%Z, #6.02745973022975e-08);
     (24%Z, (-12)%Z, #(-3.82323011855257e-11));
     (24%Z, (-8)%Z, #1.79946628317437e-03);
     (36%Z, (-12)%Z, #(-3.45042834640005e-04))].

(* src/r3/region3_v_subregion_pT.rs:701-735 *)
Definition pT2v_3p (p : num) (T : num) : num :=
  let d := mk_para (#23.0) (#650.0) (#0.0041) (#0.972) (#0.997) (#0.5) (#1.0) (#1.0) in
  pT2v_sum p T pT2v_3p_IJn d.

(* src/r3/region3_v_subregion_pT.rs:738-763  IJn *)
Definition pT2v_3q_IJn : list (Z * Z * num) :=
  [((-12)%Z, 10%Z, #(-8.20433843259950e+04));
     ((-12)%Z, 12%Z, #4.73271518461586e+10);
     ((-10)%Z, 6%Z, #(-8.05950021005413e-02));
     ((-10)%Z, 7%Z, #3.28600025435980e+01);
     ((-10)%Z, 8%Z, #(-3.56617029982490e+03));
     ((-10)%Z, 10%Z, #(-1.72985781433335e+09));
     ((-8)%Z, 8%Z, #3.51769232729192e+07);
     ((-6)%Z, 6%Z, #(-7.75489259985144e+05));
     ((-5)%Z, 2%Z, #7.10346691966018e-05);
     ((-5)%Z, 5%Z, #9.93499883820274e+04);
     ((-4)%Z, 3%Z, #(-6.42094171904570e-01));
     ((-4)%Z, 4%Z, #(-6.12842816820083e+03));
     ((-3)%Z, 3%Z, #2.32808472983776e+02);
     ((-2)%Z, 0%Z, #(-1.42808220416837e-05));
     ((-2)%Z, 1%Z, #(-6.43596060678456e-03));
     ((-2)%Z, 2%Z, #(-4.28577227475614));
     ((-2)%Z, 4%Z, #2.25689939161918e+03);
     ((-1)%Z, 0%Z, #1.00355651721510e-03);
     ((-1)%Z, 1%Z, #3.33491455143516e-01);
     ((-1)%Z, 2%Z, #1.09697576888873);
     (0%Z, 0%Z, #9.61917379376452e-01);
     (1%Z, 0%Z, #(-8.38165632204598e-02));
     (1%Z, 1%Z, #2.47795908411492);
     (1%Z, 3%Z, #(-3.19114969006533e+03))].

(* src/r3/region3_v_subregion_pT.rs:737-768 *)
Definition pT2v_3q (p : num) (T : num) : num :=
  let d := mk_para (#23.0) (#650.0) (#0.0022) (#0.848) (#0.983) (#1.0) (#1.0) (#4.0) in
  pT2v_sum p T pT2v_3q_IJn d.

(* src/r3/region3_v_subregion_pT.rs:771-799  IJn *)
Definition pT2v_3r_IJn : list (Z * Z * num) :=
  [((-8)%Z, 6%Z, #1.44165955660863e-03);
     ((-8)%Z, 14%Z, #(-7.01438599628258e+12));
     ((-3)%Z, (-3)%Z, #(-8.30946716459219e-17));
     ((-3)%Z, 3%Z, #2.61975135368109e-01);
     ((-3)%Z, 4%Z, #3.93097214706245e+02);
     ((-3)%Z, 5%Z, #(-1.04334030654021e+04));
     ((-3)%Z, 8%Z, #4.90112654154211e+08);
     (0%Z, (-1)%Z, #(-1.47104222772069e-04));
     (0%Z, 0%Z, #1.03602748043408);
     (0%Z, 1%Z, #3.05308890065089);
     (0%Z, 5%Z, #(-3.99745276971264e+06));
     (3%Z, (-6)%Z, #5.69233719593750e-12);
     (3%Z, (-2)%Z, #(-4.64923504407778e-02));
     (8%Z, (-12)%Z, #(-5.35400396512906e-18));
     (8%Z, (-10)%Z, #3.99988795693162e-13);
     (8%Z, (-8)%Z, #(-5.36479560201811e-07));
     (8%Z, (-5)%Z, #1.59536722411202e-02);
     (10%Z, (-12)%Z, #2.70303248860217e-15);
     (10%Z, (-10)%Z, #2.44247453858506e-08);
     (10%Z, (-8)%Z, #(-9.83430636716454e-06));
     (10%Z, (-6)%Z, #6.63513144224454e-02);
     (10%Z, (-5)%Z, #(-9.93456957845006));
     (10%Z, (-4)%Z, #5.46491323528491e+02);
     (10%Z, (-3)%Z, #(-1.43365406393758e+04));
     (10%Z, (-2)%Z, #1.50764974125511e+05);
     (12%Z, (-12)%Z, #(-3.37209709340105e-10));
     (14%Z, (-12)%Z, #3.77501980025469e-09)].

(* src/r3/region3_v_subregion_pT.rs:770-804 *)
Definition pT2v_3r (p : num) (T : num) : num :=
  let d := mk_para (#23.0) (#650.0) (#0.0054) (#0.874) (#0.982) (#1.0) (#1.0) (#1.0) in
  pT2v_sum p T pT2v_3r_IJn d.

(* src/r3/region3_v_subregion_pT.rs:807-837  IJn *)
Definition pT2v_3s_IJn : list (Z * Z * num) :=
  [((-12)%Z, 20%Z, #(-5.32466612140254e+22));
     ((-12)%Z, 24%Z, #1.00415480000824e+31);
     ((-10)%Z, 22%Z, #(-1.91540001821367e+29));
     ((-8)%Z, 14%Z, #1.05618377808847e+16);
     ((-6)%Z, 36%Z, #2.02281884477061e+58);
     ((-5)%Z, 8%Z, #8.84585472596134e+07);
     ((-5)%Z, 16%Z, #1.66540181638363e+22);
     ((-4)%Z, 6%Z, #(-3.13563197669111e+05));
     ((-4)%Z, 32%Z, #(-1.85662327545324e+53));
     ((-3)%Z, 3%Z, #(-6.24942093918942e-02));
     ((-3)%Z, 8%Z, #(-5.04160724132590e+09));
     ((-2)%Z, 4%Z, #1.87514491833092e+04);
     ((-1)%Z, 1%Z, #1.21399979993217e-03);
     ((-1)%Z, 2%Z, #1.88317043049455);
     ((-1)%Z, 3%Z, #(-1.67073503962060e+03));
     (0%Z, 0%Z, #9.65961650599775e-01);
     (0%Z, 1%Z, #2.94885696802488);
     (0%Z, 4%Z, #(-6.53915627346115e+04));
     (0%Z, 28%Z, #6.04012200163444e+49);
     (1%Z, 0%Z, #(-1.98339358557937e-01));
     (1%Z, 32%Z, #(-1.75984090163501e+57));
     (3%Z, 0%Z, #3.56314881403987);
     (3%Z, 1%Z, #(-5.75991255144384e+02));
     (3%Z, 2%Z, #4.56213415338071e+04);
     (4%Z, 3%Z, #(-1.09174044987829e+07));
     (4%Z, 18%Z, #4.37796099975134e+33);
     (4%Z, 24%Z, #(-6.16552611135792e+45));
     (5%Z, 4%Z, #1.93568768917797e+09);
     (14%Z, 24%Z, #9.50898170425042e+53)].

(* src/r3/region3_v_subregion_pT.rs:806-842 *)
Definition pT2v_3s (p : num) (T : num) : num :=
  let d := mk_para (#21.0) (#640.0) (#0.0022) (#0.886) (#0.990) (#1.0) (#1.0) (#4.0) in
  pT2v_sum p T pT2v_3s_IJn d.

(* src/r3/region3_v_subregion_pT.rs:845-879  IJn *)
Definition pT2v_3t_IJn : list (Z * Z * num) :=
  [(0%Z, 0%Z, #1.55287249586268);
     (0%Z, 1%Z, #6.64235115009031);
     (0%Z, 4%Z, #(-2.89366236727210e+03));
     (0%Z, 12%Z, #(-3.85923202309848e+12));
     (1%Z, 0%Z, #(-2.91002915783761));
     (1%Z, 10%Z, #(-8.29088246858083e+11));
     (2%Z, 0%Z, #1.76814899675218);
     (2%Z, 6%Z, #(-5.34686695713469e+08));
     (2%Z, 14%Z, #1.60464608687834e+17);
     (3%Z, 3%Z, #1.96435366560186e+05);
     (3%Z, 8%Z, #1.56637427541729e+12);
     (4%Z, 0%Z, #(-1.78154560260006));
     (4%Z, 10%Z, #(-2.29746237623692e+15));
     (7%Z, 3%Z, #3.85659001648006e+07);
     (7%Z, 4%Z, #1.10554446790543e+09);
     (7%Z, 7%Z, #(-6.77073830687349e+13));
     (7%Z, 20%Z, #(-3.27910592086523e+30));
     (7%Z, 36%Z, #(-3.41552040860644e+50));
     (10%Z, 10%Z, #(-5.27251339709047e+20));
     (10%Z, 12%Z, #2.45375640937055e+23);
     (10%Z, 14%Z, #(-1.68776617209269e+26));
     (10%Z, 16%Z, #3.58958955867578e+28);
     (10%Z, 22%Z, #(-6.56475280339411e+35));
     (18%Z, 18%Z, #3.55286045512301e+38);
     (20%Z, 32%Z, #5.69021454413270e+57);
     (22%Z, 22%Z, #(-7.00584546433113e+47));
     (22%Z, 36%Z, #(-7.05772623326374e+64));
     (24%Z, 24%Z, #1.66861176200148e+52);
     (28%Z, 28%Z, #(-3.00475129680486e+60));
     (32%Z, 22%Z, #(-6.68481295196808e+50));
     (32%Z, 32%Z, #4.28432338620678e+68);
     (32%Z, 36%Z, #(-4.44227367758304e+71));
     (36%Z, 36%Z, #(-2.81396013562745e+76))].

(* src/r3/region3_v_subregion_pT.rs:844-884 *)
Definition pT2v_3t (p : num) (T : num) : num :=
  let d := mk_para (#20.0) (#650.0) (#0.0088) (#0.803) (#1.02) (#1.0) (#1.0) (#1.0) in
  pT2v_sum p T pT2v_3t_IJn d.

(* src/r3/region3_v_subregion_pT.rs:887-926  IJn *)
Definition pT2v_3u_IJn : list (Z * Z * num) :=
  [((-12)%Z, 14%Z, #1.22088349258355e+17);
     ((-10)%Z, 10%Z, #1.04216468608488e+09);
     ((-10)%Z, 12%Z, #(-8.82666931564652e+15));
     ((-10)%Z, 14%Z, #2.59929510849499e+19);
     ((-8)%Z, 10%Z, #2.22612779142211e+14);
     ((-8)%Z, 12%Z, #(-8.78473585050085e+17));
     ((-8)%Z, 14%Z, #(-3.14432577551552e+21));
     ((-6)%Z, 8%Z, #(-2.16934916996285e+12));
     ((-6)%Z, 12%Z, #1.59079648196849e+20);
     ((-5)%Z, 4%Z, #(-3.39567617303423e+02));
     ((-5)%Z, 8%Z, #8.84387651337836e+12);
     ((-5)%Z, 12%Z, #(-8.43405926846418e+20));
     ((-3)%Z, 2%Z, #1.14178193518022e+01);
     ((-1)%Z, (-1)%Z, #(-1.22708229235641e-04));
     ((-1)%Z, 1%Z, #(-1.06201671767107e+02));
     ((-1)%Z, 12%Z, #9.03443213959313e+24);
     ((-1)%Z, 14%Z, #(-6.93996270370852e+27));
     (0%Z, (-3)%Z, #6.48916718965575e-09);
     (0%Z, 1%Z, #7.18957567127851e+03);
     (1%Z, (-2)%Z, #1.05581745346187e-03);
     (2%Z, 5%Z, #(-6.51903203602581e+14));
     (2%Z, 10%Z, #(-1.60116813274676e+24));
     (3%Z, (-5)%Z, #(-5.10254294237837e-09));
     (5%Z, (-4)%Z, #(-1.52355388953402e-01));
     (5%Z, 2%Z, #6.77143292290144e+11);
     (5%Z, 3%Z, #2.76378438378930e+14);
     (6%Z, (-5)%Z, #1.16862983141686e-02);
     (6%Z, 2%Z, #(-3.01426947980171e+13));
     (8%Z, (-8)%Z, #1.69719813884840e-08);
     (8%Z, 8%Z, #1.04674840020929e+26);
     (10%Z, (-4)%Z, #(-1.08016904560140e+04));
     (12%Z, (-12)%Z, #(-9.90623601934295e-13));
     (12%Z, (-4)%Z, #5.36116483602738e+06);
     (12%Z, 4%Z, #2.26145963747881e+21);
     (14%Z, (-12)%Z, #(-4.88731565776210e-10));
     (14%Z, (-10)%Z, #1.51001548880670e-05);
     (14%Z, (-6)%Z, #(-2.27700464643920e+04));
     (14%Z, 6%Z, #(-7.81754507698846e+27))].

(* src/r3/region3_v_subregion_pT.rs:886-932 *)
Definition pT2v_3u (p : num) (T : num) : num :=
  let d := mk_para (#23.0) (#650.0) (#0.0026) (#0.902) (#0.988) (#1.0) (#1.0) (#1.0) in
  let steps := [(0%nat, 19%nat); (19%nat, 38%nat)] in
  pT2v_sum_steps p T pT2v_3u_IJn d steps.

(* src/r3/region3_v_subregion_pT.rs:935-975  IJn *)
Definition pT2v_3v_IJn : list (Z * Z * num) :=
  [((-10)%Z, (-8)%Z, #(-4.15652812061591e-55));
     ((-8)%Z, (-12)%Z, #1.77441742924043e-61);
     ((-6)%Z, (-12)%Z, #(-3.57078668203377e-55));
     ((-6)%Z, (-3)%Z, #3.59252213604114e-26);
     ((-6)%Z, 5%Z, #(-2.59123736380269e+01));
     ((-6)%Z, 6%Z, #5.94619766193460e+04);
     ((-6)%Z, 8%Z, #(-6.24184007103158e+10));
     ((-6)%Z, 10%Z, #3.13080299915944e+16);
     ((-5)%Z, 1%Z, #1.05006446192036e-09);
     ((-5)%Z, 2%Z, #(-1.92824336984852e-06));
     ((-5)%Z, 6%Z, #6.54144373749937e+05);
     ((-5)%Z, 8%Z, #5.13117462865044e+12);
     ((-5)%Z, 10%Z, #(-6.97595750347391e+18));
     ((-5)%Z, 14%Z, #(-1.03977184454767e+28));
     ((-4)%Z, (-12)%Z, #1.19563135540666e-48);
     ((-4)%Z, (-10)%Z, #(-4.36677034051655e-42));
     ((-4)%Z, (-6)%Z, #9.26990036530639e-30);
     ((-4)%Z, 10%Z, #5.87793105620748e+20);
     ((-3)%Z, (-3)%Z, #2.80375725094731e-18);
     ((-3)%Z, 10%Z, #(-1.92359972440634e+22));
     ((-3)%Z, 12%Z, #7.42705723302738e+26);
     ((-2)%Z, 2%Z, #(-5.17429682450605e+01));
     ((-2)%Z, 4%Z, #8.20612048645469e+06);
     ((-1)%Z, (-2)%Z, #(-1.88214882341448e-09));
     ((-1)%Z, 0%Z, #1.84587261114837e-02);
     (0%Z, (-2)%Z, #(-1.35830407782663e-06));
     (0%Z, 6%Z, #(-7.23681885626348e+16));
     (0%Z, 10%Z, #(-2.23449194054124e+26));
     (1%Z, (-12)%Z, #(-1.11526741826431e-35));
     (1%Z, (-10)%Z, #2.76032601145151e-29);
     (3%Z, 3%Z, #1.34856491567853e+14);
     (4%Z, (-6)%Z, #6.52440293345860e-10);
     (4%Z, 3%Z, #5.10655119774360e+16);
     (4%Z, 10%Z, #(-4.68138358908732e+31));
     (5%Z, 2%Z, #(-7.60667491183279e+15));
     (8%Z, (-12)%Z, #(-4.17247986986821e-19));
     (10%Z, (-2)%Z, #3.12545677756104e+13);
     (12%Z, (-3)%Z, #(-1.00375333864186e+14));
     (14%Z, 1%Z, #2.47761392329058e+26)].

(* src/r3/region3_v_subregion_pT.rs:934-981 *)
Definition pT2v_3v (p : num) (T : num) : num :=
  let d := mk_para (#23.0) (#650.0) (#0.0031) (#0.960) (#0.995) (#1.0) (#1.0) (#1.0) in
  let steps := [(0%nat, 19%nat); (19%nat, 39%nat)] in
  pT2v_sum_steps p T pT2v_3v_IJn d steps.

(* src/r3/region3_v_subregion_pT.rs:984-1020  IJn *)
Definition pT2v_3w_IJn : list (Z * Z * num) :=
  [((-12)%Z, 8%Z, #(-5.86219133817016e-08));
     ((-12)%Z, 14%Z, #(-8.94460355005526e+10));
     ((-10)%Z, (-1)%Z, #5.31168037519774e-31);
     ((-10)%Z, 8%Z, #1.09892402329239e-01);
     ((-8)%Z, 6%Z, #(-5.75368389425212e-02));
     ((-8)%Z, 8%Z, #2.28276853990249e+04);
     ((-8)%Z, 14%Z, #(-1.58548609655002e+18));
     ((-6)%Z, (-4)%Z, #3.29865748576503e-28);
     ((-6)%Z, (-3)%Z, #(-6.34987981190669e-25));
     ((-6)%Z, 2%Z, #6.15762068640611e-09);
     ((-6)%Z, 8%Z, #(-9.61109240985747e+07));
     ((-5)%Z, (-10)%Z, #(-4.06274286652625e-45));
     ((-4)%Z, (-1)%Z, #(-4.71103725498077e-13));
     ((-4)%Z, 3%Z, #7.25937724828145e-01);
     ((-3)%Z, (-10)%Z, #1.87768525763682e-39);
     ((-3)%Z, 3%Z, #(-1.03308436323771e+03));
     ((-2)%Z, 1%Z, #(-6.62552816342168e-02));
     ((-2)%Z, 2%Z, #5.79514041765710e+02);
     ((-1)%Z, (-8)%Z, #2.37416732616644e-27);
     ((-1)%Z, (-4)%Z, #2.71700235739893e-15);
     ((-1)%Z, 1%Z, #(-9.07886213483600e+01));
     (0%Z, (-12)%Z, #(-1.71242509570207e-37));
     (0%Z, 1%Z, #1.56792067854621e+02);
     (1%Z, (-1)%Z, #9.23261357901470e-01);
     (2%Z, (-1)%Z, #(-5.97865988422577));
     (2%Z, 2%Z, #3.21988767636389e+06);
     (3%Z, (-12)%Z, #(-3.99441390042203e-30));
     (3%Z, (-5)%Z, #4.93429086046981e-08);
     (5%Z, (-10)%Z, #8.12036983370565e-20);
     (5%Z, (-8)%Z, #(-2.07610284654137e-12));
     (5%Z, (-6)%Z, #(-3.40821291419719e-07));
     (8%Z, (-12)%Z, #5.42000573372233e-18);
     (8%Z, (-10)%Z, #(-8.56711586510214e-13));
     (10%Z, (-12)%Z, #2.66170454405981e-14);
     (10%Z, (-8)%Z, #8.58133791857099e-06)].

(* src/r3/region3_v_subregion_pT.rs:983-1025 *)
Definition pT2v_3w (p : num) (T : num) : num :=
  let d := mk_para (#23.0) (#650.0) (#0.0039) (#0.959) (#0.995) (#1.0) (#1.0) (#4.0) in
  pT2v_sum p T pT2v_3w_IJn d.

(* src/r3/region3_v_subregion_pT.rs:1028-1065  IJn *)
Definition pT2v_3x_IJn : list (Z * Z * num) :=
  [((-8)%Z, 14%Z, #3.77373741298151e+18);
     ((-6)%Z, 10%Z, #(-5.07100883722913e+12));
     ((-5)%Z, 10%Z, #(-1.03363225598860e+15));
     ((-4)%Z, 1%Z, #1.84790814320773e-06);
     ((-4)%Z, 2%Z, #(-9.24729378390945e-04));
     ((-4)%Z, 14%Z, #(-4.25999562292738e+23));
     ((-3)%Z, (-2)%Z, #(-4.62307771873973e-13));
     ((-3)%Z, 12%Z, #1.07319065855767e+21);
     ((-1)%Z, 5%Z, #6.48662492280682e+10);
     (0%Z, 0%Z, #2.44200600688281);
     (0%Z, 4%Z, #(-8.51535733484258e+09));
     (0%Z, 10%Z, #1.69894481433592e+21);
     (1%Z, (-10)%Z, #2.15780222509020e-27);
     (1%Z, (-1)%Z, #(-3.20850551367334e-01));
     (2%Z, 6%Z, #(-3.82642448458610e+16));
     (3%Z, (-12)%Z, #(-2.75386077674421e-29));
     (3%Z, 0%Z, #(-5.63199253391666e+05));
     (3%Z, 8%Z, #(-3.26068646279314e+20));
     (4%Z, 3%Z, #3.97949001553184e+13);
     (5%Z, (-6)%Z, #1.00824008584757e-07);
     (5%Z, (-2)%Z, #1.62234569738433e+04);
     (5%Z, 1%Z, #(-4.32355225319745e+10));
     (6%Z, 1%Z, #(-5.92874245598610e+11));
     (8%Z, (-6)%Z, #1.33061647281106);
     (8%Z, (-3)%Z, #1.57338197797544e+06);
     (8%Z, 1%Z, #2.58189614270853e+13);
     (8%Z, 8%Z, #2.62413209706358e+24);
     (10%Z, (-8)%Z, #(-9.20011937431142e-02));
     (12%Z, (-10)%Z, #2.20213765905426e-03);
     (12%Z, (-8)%Z, #(-1.10433759109547e+01));
     (12%Z, (-5)%Z, #8.47004870612087e+06);
     (12%Z, (-4)%Z, #(-5.92910695762536e+08));
     (14%Z, (-12)%Z, #(-1.83027173269660e-05));
     (14%Z, (-10)%Z, #1.81339603516302e-01);
     (14%Z, (-8)%Z, #(-1.19228759669889e+03));
     (14%Z, (-6)%Z, #4.30867658061468e+06)].

(* src/r3/region3_v_subregion_pT.rs:1027-1070 *)
Definition pT2v_3x (p : num) (T : num) : num :=
  let d := mk_para (#23.0) (#650.0) (#0.0049) (#0.910) (#0.988) (#1.0) (#1.0) (#1.0) in
  pT2v_sum p T pT2v_3x_IJn d.

(* src/r3/region3_v_subregion_pT.rs:1073-1094  IJn *)
Definition pT2v_3y_IJn : list (Z * Z * num) :=
  [(0%Z, (-3)%Z, #(-5.25597995024633e-10));
     (0%Z, 1%Z, #5.83441305228407e+03);
     (0%Z, 5%Z, #(-1.34778968457925e+16));
     (0%Z, 8%Z, #1.18973500934212e+25);
     (1%Z, 8%Z, #(-1.59096490904708e+26));
     (2%Z, (-4)%Z, #(-3.15839902302021e-07));
     (2%Z, (-1)%Z, #4.96212197158239e+02);
     (2%Z, 4%Z, #3.27777227273171e+18);
     (2%Z, 5%Z, #(-5.27114657850696e+21));
     (3%Z, (-8)%Z, #2.10017506281863e-17);
     (3%Z, 4%Z, #7.05106224399834e+20);
     (3%Z, 8%Z, #(-2.66713136106469e+30));
     (4%Z, (-6)%Z, #(-1.45370512554562e-08));
     (4%Z, 6%Z, #1.49333917053130e+27);
     (5%Z, (-2)%Z, #(-1.49795620287641e+07));
     (5%Z, 1%Z, #(-3.81881906271100e+15));
     (8%Z, (-8)%Z, #7.24660165585797e-05);
     (8%Z, (-2)%Z, #(-9.37808169550193e+13));
     (10%Z, (-5)%Z, #5.14411468376383e+09);
     (12%Z, (-8)%Z, #(-8.28198594040141e+04))].

(* src/r3/region3_v_subregion_pT.rs:1072-1099 *)
Definition pT2v_3y (p : num) (T : num) : num :=
  let d := mk_para (#22.0) (#650.0) (#0.0031) (#0.996) (#0.994) (#1.0) (#1.0) (#4.0) in
  pT2v_sum p T pT2v_3y_IJn d.

(* src/r3/region3_v_subregion_pT.rs:1102-1126  IJn *)
Definition pT2v_3z_IJn : list (Z * Z * num) :=
  [((-8)%Z, 3%Z, #2.4400789229065e-11);
     ((-6)%Z, 6%Z, #(-4.6305743033124e+06));
     ((-5)%Z, 6%Z, #7.2880327477771e+09);
     ((-5)%Z, 8%Z, #3.2777630285886e+15);
     ((-4)%Z, 5%Z, #(-1.1059817011841e+09));
     ((-4)%Z, 6%Z, #(-3.2389991572996e+12));
     ((-4)%Z, 8%Z, #9.2381400702325e+15);
     ((-3)%Z, (-2)%Z, #8.4225008041371e-13);
     ((-3)%Z, 5%Z, #6.6322143624551e+11);
     ((-3)%Z, 6%Z, #(-1.6717018667214e+14));
     ((-2)%Z, 2%Z, #2.5374935870139e+03);
     ((-1)%Z, (-6)%Z, #(-8.1973155961052e-21));
     (0%Z, 3%Z, #3.2838058789066e+11);
     (1%Z, 1%Z, #(-6.2500479117154e+07));
     (2%Z, 6%Z, #8.0319795746202e+20);
     (3%Z, (-6)%Z, #(-2.0439701133835e-11));
     (3%Z, (-2)%Z, #(-3.7839104705594e+03));
     (6%Z, (-6)%Z, #9.7287654593862e-03);
     (6%Z, (-5)%Z, #1.5435572168146e+01);
     (6%Z, (-4)%Z, #(-3.7396286292864e+03));
     (6%Z, (-1)%Z, #(-6.8285901137457e+10));
     (8%Z, (-8)%Z, #(-2.4848801561454e-04));
     (8%Z, (-4)%Z, #3.9453604949707e+06)].

(* src/r3/region3_v_subregion_pT.rs:1101-1131 *)
Definition pT2v_3z (p : num) (T : num) : num :=
  let d := mk_para (#22.0) (#650.0) (#0.0038) (#0.993) (#0.994) (#1.0) (#1.0) (#4.0) in
  pT2v_sum p T pT2v_3z_IJn d.

(* src/r3/region3_v_subregion_pT.rs:1133-1163 *)
Definition pT2v_3subreg (p : num) (T : num) (sub_region : subregion) : num :=
  if subregion_eqb sub_region sub_a then
    pT2v_3a p T
  else if subregion_eqb sub_region sub_b then
    pT2v_3b p T
  else if subregion_eqb sub_region sub_c then
    pT2v_3c p T
  else if subregion_eqb sub_region sub_d then
    pT2v_3d p T
  else if subregion_eqb sub_region sub_e then
    pT2v_3e p T
  else if subregion_eqb sub_region sub_f then
    pT2v_3f p T
  else if subregion_eqb sub_region sub_g then
    pT2v_3g p T
  else if subregion_eqb sub_region sub_h then
    pT2v_3h p T
  else if subregion_eqb sub_region sub_i then
    pT2v_3i p T
  else if subregion_eqb sub_region sub_j then
    pT2v_3j p T
  else if subregion_eqb sub_region sub_k then
    pT2v_3k p T
  else if subregion_eqb sub_region sub_l then
    pT2v_3l p T
  else if subregion_eqb sub_region sub_m then
    pT2v_3m p T
  else if subregion_eqb sub_region sub_n then
    pT2v_3n p T
  else if subregion_eqb sub_region sub_o then
    pT2v_3o p T
  else if subregion_eqb sub_region sub_p then
    pT2v_3p p T
  else if subregion_eqb sub_region sub_q then
    pT2v_3q p T
  else if subregion_eqb sub_region sub_r then
    pT2v_3r p T
  else if subregion_eqb sub_region sub_s then
    pT2v_3s p T
  else if subregion_eqb sub_region sub_t then
    pT2v_3t p T
  else if subregion_eqb sub_region sub_u then
    pT2v_3u p T
  else if subregion_eqb sub_region sub_v then
    pT2v_3v p T
  else if subregion_eqb sub_region sub_w then
    pT2v_3w p T
  else if subregion_eqb sub_region sub_x then
    pT2v_3x p T
  else if subregion_eqb sub_region sub_y then
    pT2v_3y p T
  else if subregion_eqb sub_region sub_z then
    pT2v_3z p T
  else 
    ofZ INVALID_VALUE.

End Model.
