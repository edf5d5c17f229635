(* Generated by tools/rs2v.py from src/r1/region1_gfe.rs, src/r1/region1_pT.rs, src/r1/region1_pT_ext.rs.
   Every definition cites the source lines it models; see tools/rs2v.py for the
   translation rules (mutable variables become let-rebinding, match on constants
   becomes an if-chain in source order, for loops over ranges become fold_left). *)
From Coq Require Import ZArith List Bool String.
From Verif Require Import Num Algo Constant.
Import ListNotations.
Open Scope num_scope.

Section Model.
Context {N : Arith}.

(* src/r1/region1_gfe.rs:9-9  r1pstar *)
Definition r1pstar : num :=
  #16.53.

(* src/r1/region1_gfe.rs:10-10  r1Tstar *)
Definition r1Tstar : num :=
  #1386.0.

(* src/r1/region1_gfe.rs:13-48  IJn *)
Definition region1_gfe_IJn : list (Z * Z * num) :=
  [(0%Z, (-2)%Z, #0.14632971213167E+00);
     (0%Z, (-1)%Z, #(-0.84548187169114E+00));
     (0%Z, 0%Z, #(-0.37563603672040E+01));
     (0%Z, 1%Z, #0.33855169168385E+01);
     (0%Z, 2%Z, #(-0.95791963387872E+00));
     (0%Z, 3%Z, #0.15772038513228E+00);
     (0%Z, 4%Z, #(-0.16616417199501E-01));
     (0%Z, 5%Z, #0.81214629983568E-03);
     (1%Z, (-9)%Z, #0.28319080123804E-03);
     (1%Z, (-7)%Z, #(-0.60706301565874E-03));
     (1%Z, (-1)%Z, #(-0.18990068218419E-01));
     (1%Z, 0%Z, #(-0.32529748770505E-01));
     (1%Z, 1%Z, #(-0.21841717175414E-01));
     (1%Z, 3%Z, #(-0.52838357969930E-04));
     (2%Z, (-3)%Z, #(-0.47184321073267E-03));
     (2%Z, 0%Z, #(-0.30001780793026E-03));
     (2%Z, 1%Z, #0.47661393906987E-04);
     (2%Z, 3%Z, #(-0.44141845330846E-05));
     (2%Z, 17%Z, #(-0.72694996297594E-15));
     (3%Z, (-4)%Z, #(-0.31679644845054E-04));
     (3%Z, 0%Z, #(-0.28270797985312E-05));
     (3%Z, 6%Z, #(-0.85205128120103E-09));
     (4%Z, (-5)%Z, #(-0.22425281908000E-05));
     (4%Z, (-2)%Z, #(-0.65171222895601E-06));
     (4%Z, 10%Z, #(-0.14341729937924E-12));
     (5%Z, (-8)%Z, #(-0.40516996860117E-06));
     (8%Z, (-11)%Z, #(-0.12734301741641E-08));
     (8%Z, (-6)%Z, #(-0.17424871230634E-09));
     (21%Z, (-29)%Z, #(-0.68762131295531E-18));
     (23%Z, (-31)%Z, #0.14478307828521E-19);
     (29%Z, (-38)%Z, #0.26335781662795E-22);
     (30%Z, (-39)%Z, #(-0.11947622640071E-22));
     (31%Z, (-40)%Z, #0.18228094581404E-23);
     (32%Z, (-41)%Z, #(-0.93537087292458E-25))].

(* src/r1/region1_gfe.rs:51-54 *)
Definition gamma_reg1 (pi : num) (tau : num) : num :=
  let steps := [(0%nat, 19%nat); (19%nat, 34%nat)] in
  poly_powi_steps (#7.1 - pi) (tau - #1.222) region1_gfe_IJn steps.

(* src/r1/region1_gfe.rs:57-60 *)
Definition gamma_pi_reg1 (pi : num) (tau : num) : num :=
  let steps := [(0%nat, 17%nat); (17%nat, 34%nat)] in
  - (poly_i_powi_steps (#7.1 - pi) (tau - #1.222) region1_gfe_IJn steps).

(* src/r1/region1_gfe.rs:63-66 *)
Definition gamma_pipi_reg1 (pi : num) (tau : num) : num :=
  let steps := [(0%nat, 17%nat); (17%nat, 34%nat)] in
  poly_ii_powi_steps (#7.1 - pi) (tau - #1.222) region1_gfe_IJn steps.

(* src/r1/region1_gfe.rs:69-72 *)
Definition gamma_tau_reg1 (pi : num) (tau : num) : num :=
  let steps := [(0%nat, 17%nat); (17%nat, 34%nat)] in
  poly_j_powi_steps (#7.1 - pi) (tau - #1.222) region1_gfe_IJn steps.

(* src/r1/region1_gfe.rs:75-79 *)
Definition gamma_tautau_reg1 (pi : num) (tau : num) : num :=
  let steps := [(0%nat, 15%nat); (15%nat, 26%nat); (26%nat, 34%nat)] in
  poly_jj_powi_steps (#7.1 - pi) (tau - #1.222) region1_gfe_IJn steps.

(* src/r1/region1_gfe.rs:82-85 *)
Definition gamma_pitau_reg1 (pi : num) (tau : num) : num :=
  let steps := [(0%nat, 17%nat); (17%nat, 34%nat)] in
  - (poly_ij_powi_steps (#7.1 - pi) (tau - #1.222) region1_gfe_IJn steps).

(* src/r1/region1_gfe.rs:88-92 *)
Definition polys_i_j_powi_reg1 (pi : num) (tau : num) : (num * num) :=
  let steps := [(0%nat, 16%nat); (16%nat, 26%nat); (26%nat, 34%nat)] in
  let '(d_pi, d_tau) := polys_i_j_powi_steps (#7.1 - pi) (tau - #1.222) region1_gfe_IJn steps in
  ((- d_pi), d_tau).

(* src/r1/region1_gfe.rs:94-98 *)
Definition polys_i_ii_powi_reg1 (pi : num) (tau : num) : (num * num) :=
  let steps := [(0%nat, 14%nat); (14%nat, 26%nat); (26%nat, 34%nat)] in
  let '(poly_pi, poly_pipi) := polys_i_ii_powi_steps (#7.1 - pi) (tau - #1.222) region1_gfe_IJn steps in
  ((- poly_pi), poly_pipi).

(* src/r1/region1_gfe.rs:100-103 *)
Definition polys_0_j_powi_reg1 (pi : num) (tau : num) : (num * num) :=
  let steps := [(0%nat, 16%nat); (16%nat, 34%nat)] in
  polys_0_j_powi_steps (#7.1 - pi) (tau - #1.222) region1_gfe_IJn steps.

(* src/r1/region1_gfe.rs:105-109 *)
Definition polys_i_ij_powi_reg1 (pi : num) (tau : num) : (num * num) :=
  let steps := [(0%nat, 17%nat); (17%nat, 34%nat)] in
  let '(ploy_pi, ploy_pitau) := polys_i_ij_powi_steps (#7.1 - pi) (tau - #1.222) region1_gfe_IJn steps in
  ((- ploy_pi), (- ploy_pitau)).

(* src/r1/region1_gfe.rs:112-117 *)
Definition polys_i_ii_ij_jj_powi_reg1 (pi : num) (tau : num) : (num * num * num * num) :=
  let steps := [(0%nat, 11%nat); (11%nat, 20%nat); (20%nat, 28%nat); (28%nat, 34%nat)] in
  let '(ploy_pi, ploy_pipi, ploy_pitau, ploy_tautau) := polys_i_ii_ij_jj_powi_steps (#7.1 - pi) (tau - #1.222) region1_gfe_IJn steps in
  ((- ploy_pi), ploy_pipi, (- ploy_pitau), ploy_tautau).

(* src/r1/region1_pT.rs:19-23 *)
Definition pT2v_reg1 (p : num) (T : num) : num :=
  let tau := r1Tstar / T in
  let pi := p / r1pstar in
  ((((#0.001 * RGAS_WATER) * T) * pi) * (gamma_pi_reg1 pi tau)) / p.

(* src/r1/region1_pT.rs:26-31 *)
Definition pT2u_reg1 (p : num) (T : num) : num :=
  let pi := p / r1pstar in
  let tau := r1Tstar / T in
  let '(d_pi, d_tau) := polys_i_j_powi_reg1 pi tau in
  (RGAS_WATER * T) * ((tau * d_tau) - (pi * d_pi)).

(* src/r1/region1_pT.rs:34-39 *)
Definition pT2s_reg1 (p : num) (T : num) : num :=
  let tau := r1Tstar / T in
  let pi := p / r1pstar in
  let '(v, d_tau) := polys_0_j_powi_reg1 pi tau in
  RGAS_WATER * ((tau * d_tau) - v).

(* src/r1/region1_pT.rs:42-46 *)
Definition pT2h_reg1 (p : num) (T : num) : num :=
  let tau := r1Tstar / T in
  let pi := p / r1pstar in
  ((RGAS_WATER * T) * tau) * (gamma_tau_reg1 pi tau).

(* src/r1/region1_pT.rs:49-53 *)
Definition pT2cp_reg1 (p : num) (T : num) : num :=
  let tau := r1Tstar / T in
  let pi := p / r1pstar in
  (((- RGAS_WATER) * tau) * tau) * (gamma_tautau_reg1 pi tau).

(* src/r1/region1_pT.rs:56-65 *)
Definition pT2cv_reg1 (p : num) (T : num) : num :=
  let tau := r1Tstar / T in
  let pi := p / r1pstar in
  let '(d_pi, d_pipi, d_pitau, d_tautau) := polys_i_ii_ij_jj_powi_reg1 pi tau in
  let a := ((- tau) * tau) * d_tautau in
  let b := d_pi - (tau * d_pitau) in
  let b := b * b in
  RGAS_WATER * (a + (b / d_pipi)).

(* src/r1/region1_pT.rs:69-80 *)
Definition pT2w_reg1 (p : num) (T : num) : num :=
  let tau := r1Tstar / T in
  let pi := p / r1pstar in
  let '(d_pi, d_pipi, d_pitau, d_tautau) := polys_i_ii_ij_jj_powi_reg1 pi tau in
  let a := d_pi - (tau * d_pitau) in
  let a := a * a in
  let b := (a / ((tau * tau) * d_tautau)) - d_pipi in
  let temp := ((#1000.0 * RGAS_WATER) * T) / b in
  d_pi * (nsqrt temp).

(* src/r1/region1_pT_ext.rs:54-58 *)
Definition pT2g_reg1 (p : num) (T : num) : num :=
  let tau := r1Tstar / T in
  let pi := p / r1pstar in
  (RGAS_WATER * T) * (gamma_reg1 pi tau).

(* src/r1/region1_pT_ext.rs:62-66 *)
Definition pT2f_reg1 (p : num) (T : num) : num :=
  let tau := r1Tstar / T in
  let pi := p / r1pstar in
  (RGAS_WATER * T) * ((gamma_reg1 pi tau) - (pi * (gamma_pi_reg1 pi tau))).

(* src/r1/region1_pT_ext.rs:70-76 *)
Definition pT2kt_reg1 (p : num) (T : num) : num :=
  let tau := r1Tstar / T in
  let pi := p / r1pstar in
  let '(d_pi, d_pipi) := polys_i_ii_powi_reg1 pi tau in
  ((- d_pipi) / d_pi) / r1pstar.

(* src/r1/region1_pT_ext.rs:81-86 *)
Definition pT2ec_reg1 (p : num) (T : num) : num :=
  let tau := r1Tstar / T in
  let pi := p / r1pstar in
  let '(d_pi, d_pitau) := polys_i_ij_powi_reg1 pi tau in
  (#1.0 / T) - (((tau * (- d_pitau)) / (- d_pi)) / T).

(* src/r1/region1_pT_ext.rs:89-96 *)
Definition pT2dpdtcv_reg1 (p : num) (T : num) : num :=
  let tau := r1Tstar / T in
  let pi := p / r1pstar in
  let gamma_pitau := gamma_pitau_reg1 pi tau in
  let gamma_pi := gamma_pi_reg1 pi tau in
  let gamma_pipi := gamma_pipi_reg1 pi tau in
  (r1pstar * ((gamma_pitau * r1Tstar) - (gamma_pi * T))) / ((T * T) * gamma_pipi).

(* src/r1/region1_pT_ext.rs:100-108 *)
Definition pT2joule_reg1 (p : num) (T : num) : num :=
  let tau := r1Tstar / T in
  let pi := p / r1pstar in
  let g1pi := gamma_pi_reg1 pi tau in
  let v := ((RGAS_WATER * T) * g1pi) / r1pstar in
  let cp := (((- RGAS_WATER) * tau) * tau) * (gamma_tautau_reg1 pi tau) in
  let TCex_1 := ((- tau) * (gamma_pitau_reg1 pi tau)) / g1pi in
  (v / cp) * TCex_1.

(* src/r1/region1_pT_ext.rs:113-117 *)
Definition pT2iJTC_reg1 (p : num) (T : num) : num :=
  let tau := r1Tstar / T in
  let pi := p / r1pstar in
  (((#0.001 * RGAS_WATER) * r1Tstar) * (gamma_pitau_reg1 pi tau)) / r1pstar.

(* src/r1/region1_pT_ext.rs:120-124 *)
Definition pT2dvdpct_reg1 (p : num) (T : num) : num :=
  let tau := r1Tstar / T in
  let pi := p / r1pstar in
  ((((#0.001 * RGAS_WATER) * T) * (gamma_pipi_reg1 pi tau)) / r1pstar) / r1pstar.

(* src/r1/region1_pT_ext.rs:127-131 *)
Definition pT2dvdTcp_reg1 (p : num) (T : num) : num :=
  let tau := r1Tstar / T in
  let pi := p / r1pstar in
  ((#0.001 * RGAS_WATER) * ((gamma_pi_reg1 pi tau) - (tau * (gamma_pitau_reg1 pi tau)))) / r1pstar.

(* src/r1/region1_pT_ext.rs:134-137 *)
Definition pT2z_reg1 (p : num) (T : num) : num :=
  let v := pT2v_reg1 p T in
  (((#1000.0 * p) * v) / RGAS_WATER) / T.

(* src/r1/region1_pT_ext.rs:141-145 *)
Definition pT2k_reg1 (p : num) (T : num) : num :=
  let v := pT2v_reg1 p T in
  let w := pT2w_reg1 p T in
  (((#1.0E-6 * w) * w) / v) / p.

(* src/r1/region1_pT_ext.rs:149-151 *)
Definition pT2pc_reg1 (p : num) (T : num) : num :=
  (#1.0 / p) * (pT2dpdtcv_reg1 p T).

(* src/r1/region1_pT_ext.rs:154-160 *)
Definition pT2e_reg1 (p : num) (T : num) : num :=
  let tau := r1Tstar / T in
  let pi := p / r1pstar in
  let gumma := gamma_reg1 pi tau in
  let gumma_tau := gamma_tau_reg1 pi tau in
  RGAS_WATER * ((T * gumma) + ((T - #273.16) * ((tau * gumma_tau) - gumma))).

(* src/r1/region1_pT_ext.rs:166-170 *)
Definition pT2batap_reg1 (p : num) (T : num) : num :=
  let v := pT2v_reg1 p T in
  let kt := pT2kt_reg1 p T in
  #1.0 / ((p * v) * kt).

(* src/r1/region1_pT_ext.rs:174-177 *)
Definition pT2fi_reg1 (p : num) (T : num) : num :=
  let g := pT2g_reg1 p T in
  nexp ((g / RGAS_WATER) / T).

(* src/r1/region1_pT_ext.rs:181-184 *)
Definition pT2fu_reg1 (p : num) (T : num) : num :=
  let fi := pT2fi_reg1 p T in
  p * fi.

(* src/r1/region1_pT_ext.rs:188-192 *)
Definition pT2alfap_reg1 (p : num) (T : num) : num :=
  let ec := pT2ec_reg1 p T in
  let kt := pT2kt_reg1 p T in
  (ec / p) / kt.

(* src/r1/region1_pT_ext.rs:30-51 *)
Definition pT_ext_reg1 (p : num) (T : num) (o_id : Z) : num :=
  if Z.eqb o_id OF then
    pT2f_reg1 p T
  else if Z.eqb o_id OG then
    pT2g_reg1 p T
  else if Z.eqb o_id OZ then
    pT2z_reg1 p T
  else if Z.eqb o_id OKS then
    pT2k_reg1 p T
  else if Z.eqb o_id OKT then
    pT2kt_reg1 p T
  else if Z.eqb o_id OEC then
    pT2ec_reg1 p T
  else if Z.eqb o_id OJTC then
    pT2joule_reg1 p T
  else if Z.eqb o_id OIJTC then
    pT2iJTC_reg1 p T
  else if Z.eqb o_id OPC then
    pT2pc_reg1 p T
  else if Z.eqb o_id ODPDT then
    pT2dpdtcv_reg1 p T
  else if Z.eqb o_id ODVDP then
    pT2dvdpct_reg1 p T
  else if Z.eqb o_id ODVDT then
    pT2dvdTcp_reg1 p T
  else if Z.eqb o_id OE then
    pT2e_reg1 p T
  else if Z.eqb o_id OBETAP then
    pT2batap_reg1 p T
  else if Z.eqb o_id OFI then
    pT2fi_reg1 p T
  else if Z.eqb o_id OFU then
    pT2fu_reg1 p T
  else if Z.eqb o_id OALFAP then
    pT2alfap_reg1 p T
  else 
    ofZ INVALID_OUTID.

End Model.
