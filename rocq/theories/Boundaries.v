(* Generated by tools/rs2v.py from src/common/boundaries.rs.
   Every definition cites the source lines it models; see tools/rs2v.py for the
   translation rules (mutable variables become let-rebinding, match on constants
   becomes an if-chain in source order, for loops over ranges become fold_left). *)
From Coq Require Import ZArith List Bool String.
From Verif Require Import Num Algo Constant Reg1 Reg2.
Import ListNotations.
Open Scope num_scope.

Section Model.
Context {N : Arith}.

(* src/common/boundaries.rs:14-14  n23 *)
Definition B23_T2p_n23 : list num :=
  [#0.34805185628969e3; #(-0.11671859879975e1); #0.10192970039326e-2].

(* src/common/boundaries.rs:13-16 *)
Definition B23_T2p (T : num) : num :=
  (nth (0%nat) B23_T2p_n23 (#0.0)) + (((nth (1%nat) B23_T2p_n23 (#0.0)) + ((nth (2%nat) B23_T2p_n23 (#0.0)) * T)) * T).

(* src/common/boundaries.rs:22-22  n23 *)
Definition B23_p2T_n23 : list num :=
  [#0.10192970039326e-2; #0.57254459862746e3; #0.13918839778870e2].

(* src/common/boundaries.rs:21-24 *)
Definition B23_p2T (p : num) : num :=
  (nth (1%nat) B23_p2T_n23 (#0.0)) + (powf ((p - (nth (2%nat) B23_p2T_n23 (#0.0))) / (nth (0%nat) B23_p2T_n23 (#0.0))) (#0.5)).

(* src/common/boundaries.rs:34-49  IJn *)
Definition h2p_sat_reg3_IJn : list (Z * Z * num) :=
  [(0%Z, 0%Z, #0.600073641753024);
     (1%Z, 1%Z, #(-0.936203654849857e1));
     (1%Z, 3%Z, #0.246590798594147e2);
     (1%Z, 4%Z, #(-0.107014222858224e3));
     (1%Z, 36%Z, #(-0.915821315805768e14));
     (5%Z, 3%Z, #(-0.862332011700662e4));
     (7%Z, 0%Z, #(-0.235837344740032e2));
     (8%Z, 24%Z, #0.252304969384128e18);
     (14%Z, 16%Z, #(-0.389718771997719e19));
     (20%Z, 16%Z, #(-0.333775713645296e23));
     (22%Z, 3%Z, #0.356499469636328e11);
     (24%Z, 18%Z, #(-0.148547544720641e27));
     (28%Z, 8%Z, #0.330611514838798e19);
     (36%Z, 24%Z, #0.813641294467829e38)].

(* src/common/boundaries.rs:32-60 *)
Definition h2p_sat_reg3 (h : num) : num :=
  let hmin_Ps3 := pT2h_reg1 Ps_623 (#623.15) in
  let hmax_Ps3 := pT2h_reg2 Ps_623 (#623.15) in
  if (h <? hmin_Ps3) || (h >? hmax_Ps3) then
    ofZ INVALID_H
  else 
  let nu := h / #2600.0 in
  let suma := poly_powi (nu - #1.02) (nu - #0.608) h2p_sat_reg3_IJn in
  #22.0 * suma.

(* src/common/boundaries.rs:67-78  IJn *)
Definition s2p_sat_reg3_IJn : list (Z * Z * num) :=
  [(0%Z, 0%Z, #0.639767553612785);
     (1%Z, 1%Z, #(-0.129727445396014e2));
     (1%Z, 32%Z, #(-0.224595125848403e16));
     (4%Z, 7%Z, #0.177466741801846e7);
     (12%Z, 4%Z, #0.717079349571538e10);
     (12%Z, 14%Z, #(-0.378829107169011e18));
     (16%Z, 36%Z, #(-0.955586736431328e35));
     (24%Z, 10%Z, #0.187269814676188e24);
     (28%Z, 0%Z, #0.119254746466473e12);
     (32%Z, 18%Z, #0.110649277244882e37)].

(* src/common/boundaries.rs:66-90 *)
Definition s2p_sat_reg3 (s : num) : num :=
  let smin_Ps3 := pT2s_reg1 Ps_623 (#623.15) in
  let smax_Ps3 := pT2s_reg2 Ps_623 (#623.15) in
  if (s <? smin_Ps3) || (s >? smax_Ps3) then
    ofZ INVALID_S
  else 
  let sigma := s / #5.2 in
  let suma := poly_powi (sigma - #1.03) (sigma - #0.699) s2p_sat_reg3_IJn in
  #22.0 * suma.

(* src/common/boundaries.rs:97-125  IJn *)
Definition hs_region_h1_s_IJn : list (Z * Z * num) :=
  [(0%Z, 14%Z, #0.332171191705237E+0);
     (0%Z, 36%Z, #0.611217706323496E-3);
     (1%Z, 3%Z, #(-0.882092478906822E+1));
     (1%Z, 16%Z, #(-0.455628192543250E+0));
     (2%Z, 0%Z, #(-0.263483840850452E-4));
     (2%Z, 5%Z, #(-0.223949661148062E+2));
     (3%Z, 4%Z, #(-0.428398660164013E+1));
     (3%Z, 36%Z, #(-0.616679338856916E+0));
     (4%Z, 4%Z, #(-0.146823031104040E+2));
     (4%Z, 16%Z, #0.284523138727299E+3);
     (4%Z, 24%Z, #(-0.113398503195444E+3));
     (5%Z, 18%Z, #0.115671380760859E+4);
     (5%Z, 24%Z, #0.395551267359325E+3);
     (7%Z, 1%Z, #(-0.154891257229285E+1));
     (8%Z, 4%Z, #0.194486637751291E+2);
     (12%Z, 2%Z, #(-0.357915139457043E+1));
     (12%Z, 4%Z, #(-0.335369414148819E+1));
     (14%Z, 1%Z, #(-0.664426796332460E+0));
     (14%Z, 22%Z, #0.323321885383934E+5);
     (16%Z, 10%Z, #0.331766744667084E+4);
     (20%Z, 12%Z, #(-0.223501257931087E+5));
     (20%Z, 28%Z, #0.573953875852936E+7);
     (22%Z, 8%Z, #0.173226193407919E+3);
     (24%Z, 3%Z, #(-0.363968822121321E-1));
     (28%Z, 0%Z, #0.834596332878346E-6);
     (32%Z, 6%Z, #0.503611916682674E+1);
     (32%Z, 8%Z, #0.655444787064505E+2)].

(* src/common/boundaries.rs:96-135 *)
Definition hs_region_h1_s (s : num) : num :=
  if (s <? #(-1.545495919e-4)) || (s >? #3.77828134) then
    ofZ INVALID_S
  else 
  let sigma := s / #3.8 in
  let suma := poly_powi (sigma - #1.09) (sigma + #0.366e-4) hs_region_h1_s_IJn in
  #1700.0 * suma.

(* src/common/boundaries.rs:140-160  IJn *)
Definition hs_region_h3a_s_IJn : list (Z * Z * num) :=
  [(0%Z, 1%Z, #0.822673364673336E+0);
     (0%Z, 4%Z, #0.181977213534479E+0);
     (0%Z, 10%Z, #(-0.112000260313624E-1));
     (0%Z, 16%Z, #(-0.746778287048033E-3));
     (2%Z, 1%Z, #(-0.179046263257381E+0));
     (3%Z, 36%Z, #0.424220110836657E-1);
     (4%Z, 3%Z, #(-0.341355823438768E+0));
     (4%Z, 16%Z, #(-0.209881740853565E+1));
     (5%Z, 20%Z, #(-0.822477343323596E+1));
     (5%Z, 36%Z, #(-0.499684082076008E+1));
     (6%Z, 4%Z, #0.191413958471069E+0);
     (7%Z, 2%Z, #0.581062241093136E-1);
     (7%Z, 28%Z, #(-0.165505498701029E+4));
     (7%Z, 32%Z, #0.158870443421201E+4);
     (10%Z, 14%Z, #(-0.850623535172818E+2));
     (10%Z, 32%Z, #(-0.317714386511207E+5));
     (10%Z, 36%Z, #(-0.945890406632871E+5));
     (32%Z, 0%Z, #(-0.139273847088690E-5));
     (32%Z, 6%Z, #0.631052532240980E+0)].

(* src/common/boundaries.rs:139-169 *)
Definition hs_region_h3a_s (s : num) : num :=
  if (s <? #3.77828134) || (s >? SC_WATER) then
    ofZ INVALID_S
  else 
  let sigma := s / #3.8 in
  let suma := poly_powi (sigma - #1.09) (sigma + #0.366e-4) hs_region_h3a_s_IJn in
  #1700.0 * suma.

(* src/common/boundaries.rs:174-205  IJn *)
Definition hs_region_h2ab_s_IJn : list (Z * Z * num) :=
  [(1%Z, 8%Z, #(-0.524581170928788E03));
     (1%Z, 24%Z, #(-0.926947218142218E07));
     (2%Z, 4%Z, #(-0.237385107491666E03));
     (2%Z, 32%Z, #0.210770155812776E11);
     (4%Z, 1%Z, #(-0.239494562010986E02));
     (4%Z, 2%Z, #0.221802480294197E03);
     (7%Z, 7%Z, #(-0.510472533393438E07));
     (8%Z, 5%Z, #0.124981396109147E07);
     (8%Z, 12%Z, #0.200008436996201E10);
     (10%Z, 1%Z, #(-0.815158509791035E03));
     (12%Z, 0%Z, #(-0.157612685637523E03));
     (12%Z, 7%Z, #(-0.114200422332791E11));
     (18%Z, 10%Z, #0.662364680776872E16);
     (20%Z, 12%Z, #(-0.227622818296144E19));
     (24%Z, 32%Z, #(-0.171048081348406E32));
     (28%Z, 8%Z, #0.660788766938091E16);
     (28%Z, 12%Z, #0.166320055886021E23);
     (28%Z, 20%Z, #(-0.218003784381501E30));
     (28%Z, 22%Z, #(-0.787276140295618E30));
     (28%Z, 24%Z, #0.151062329700346E32);
     (32%Z, 2%Z, #0.795732170300541E07);
     (32%Z, 7%Z, #0.131957647355347E16);
     (32%Z, 12%Z, #(-0.325097068299140E24));
     (32%Z, 14%Z, #(-0.418600611419248E26));
     (32%Z, 24%Z, #0.297478906557467E35);
     (36%Z, 10%Z, #(-0.953588761745473E20));
     (36%Z, 12%Z, #0.166957699620939E25);
     (36%Z, 20%Z, #(-0.175407764869978E33));
     (36%Z, 22%Z, #0.347581490626396E35);
     (36%Z, 28%Z, #(-0.710971318427851E39))].

(* src/common/boundaries.rs:173-216 *)
Definition hs_region_h2ab_s (s : num) : num :=
  if (s <? #5.85) || (s >? #9.155759395) then
    ofZ INVALID_S
  else 
  let sigma1 := s / #5.21 in
  let sigma2 := (s / #9.2) - #0.524 in
  let suma := poly_powi ((#1.0 / sigma1) - #0.513) sigma2 hs_region_h2ab_s_IJn in
  #2800.0 * (nexp suma).

(* src/common/boundaries.rs:221-238  IJn *)
Definition hs_region_h2c3b_s_IJn : list (Z * Z * num) :=
  [(0%Z, 0%Z, #0.104351280732769E01);
     (0%Z, 3%Z, #(-0.227807912708513E01));
     (0%Z, 4%Z, #0.180535256723202E01);
     (1%Z, 0%Z, #0.420440834792042E00);
     (1%Z, 12%Z, #(-0.105721244834660E06));
     (5%Z, 36%Z, #0.436911607493884E25);
     (6%Z, 12%Z, #(-0.328032702839753E12));
     (7%Z, 16%Z, #(-0.678686760804270E16));
     (8%Z, 2%Z, #0.743957464645363E04);
     (8%Z, 20%Z, #(-0.356896445355761E20));
     (12%Z, 32%Z, #0.167590585186801E32);
     (16%Z, 36%Z, #(-0.355028625419105E38));
     (22%Z, 2%Z, #0.396611982166538E12);
     (22%Z, 32%Z, #(-0.414716268484468E41));
     (24%Z, 7%Z, #0.359080103867382E19);
     (36%Z, 20%Z, #(-0.116994334851995E41))].

(* src/common/boundaries.rs:220-248 *)
Definition hs_region_h2c3b_s (s : num) : num :=
  if (s <? SC_WATER) || (s >? #5.85) then
    ofZ INVALID_S
  else 
  let sigma := s / #5.9 in
  let suma := poly_powi (sigma - #1.02) (sigma - #0.726) hs_region_h2c3b_s_IJn in
  #2800.0 * (powi suma (4%Z)).

(* src/common/boundaries.rs:253-260  IJn *)
Definition hs_region_h13_s_IJn : list (Z * Z * num) :=
  [(0%Z, 0%Z, #0.913965547600543E+00); (1%Z, (-2)%Z, #(-0.430944856041991E-04)); (1%Z, 2%Z, #0.603235694765419E+02); (3%Z, (-12)%Z, #0.117518273082168E-17); (5%Z, (-4)%Z, #0.220000904781292E+00); (6%Z, (-3)%Z, #(-0.690815545851641E+02))].

(* src/common/boundaries.rs:252-269 *)
Definition hs_region_h13_s (s : num) : num :=
  if (s <? #3.397782955) || (s >? #3.77828134) then
    ofZ INVALID_S
  else 
  let sigma := s / #3.8 in
  let suma := poly_powi (sigma - #0.884) (sigma - #0.864) hs_region_h13_s_IJn in
  #1700.0 * suma.

(* src/common/boundaries.rs:275-301  IJn *)
Definition hs_region_t_hs_IJn : list (Z * Z * num) :=
  [((-12)%Z, 10%Z, #0.629096260829810E-03);
     ((-10)%Z, 8%Z, #(-0.823453502583165E-03));
     ((-8)%Z, 3%Z, #0.515446951519474E-07);
     ((-4)%Z, 4%Z, #(-0.117565945784945E+01));
     ((-3)%Z, 3%Z, #0.348519684726192E+01);
     ((-2)%Z, (-6)%Z, #(-0.507837382408313E-11));
     ((-2)%Z, 2%Z, #(-0.284637670005479E+01));
     ((-2)%Z, 3%Z, #(-0.236092263939673E+01));
     ((-2)%Z, 4%Z, #0.601492324973779E+01);
     (0%Z, 0%Z, #0.148039650824546E+01);
     (1%Z, (-3)%Z, #0.360075182221907E-03);
     (1%Z, (-2)%Z, #(-0.126700045009952E-01));
     (1%Z, 10%Z, #(-0.122184332521413E+07));
     (3%Z, (-2)%Z, #0.149276502463272E+00);
     (3%Z, (-1)%Z, #0.698733471798484E+00);
     (5%Z, (-5)%Z, #(-0.252207040114321E-01));
     (6%Z, (-6)%Z, #0.147151930985213E-01);
     (6%Z, (-3)%Z, #(-0.108618917681849E+01));
     (8%Z, (-8)%Z, #(-0.936875039816322E-03));
     (8%Z, (-2)%Z, #0.819877897570217E+02);
     (8%Z, (-1)%Z, #(-0.182041861521835E+03));
     (12%Z, (-12)%Z, #0.261907376402688E-05);
     (12%Z, (-1)%Z, #(-0.291626417025961E+05));
     (14%Z, (-12)%Z, #0.140660774926165E-04);
     (14%Z, 1%Z, #0.783237062349385E+07)].

(* src/common/boundaries.rs:273-311 *)
Definition hs_region_t_hs (h : num) (s : num) : num :=
  if (((s <? #5.048096828) || (s >? #5.260578707)) || (h <? #2.563592004e3)) || (h >? #2.812942061e3) then
    ofZ INVALID_HS
  else 
  let nu := h / #3000.0 in
  let sigma := s / #5.3 in
  let suma := poly_powi (nu - #0.727) (sigma - #0.864) hs_region_t_hs_IJn in
  #900.0 * suma.

End Model.
