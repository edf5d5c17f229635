(* Generated by tools/rs2v.py from src/r3/region3_hfe.rs, src/r3/region3_Td.rs, src/r3/region3_Td_ext.rs.
   Every definition cites the source lines it models; see tools/rs2v.py for the
   translation rules (mutable variables become let-rebinding, match on constants
   becomes an if-chain in source order, for loops over ranges become fold_left). *)
From Coq Require Import ZArith List Bool String.
From Verif Require Import Num Algo Constant.
Import ListNotations.
Open Scope num_scope.

Section Model.
Context {N : Arith}.

(* src/r3/region3_hfe.rs:10-10  n1 *)
Definition region3_hfe_n1 : num :=
  #0.10658070028513e1.

(* src/r3/region3_hfe.rs:12-52  IJn *)
Definition region3_hfe_IJn : list (Z * Z * num) :=
  [(0%Z, 0%Z, #(-0.15732845290239E+02));
     (0%Z, 1%Z, #0.20944396974307E+02);
     (0%Z, 2%Z, #(-0.76867707878716E+01));
     (0%Z, 7%Z, #0.26185947787954E+01);
     (0%Z, 10%Z, #(-0.28080781148620E+01));
     (0%Z, 12%Z, #0.12053369696517E+01);
     (0%Z, 23%Z, #(-0.84566812812502E-02));
     (1%Z, 2%Z, #(-0.12654315477714E+01));
     (1%Z, 6%Z, #(-0.11524407806681E+01));
     (1%Z, 15%Z, #0.88521043984318E+00);
     (1%Z, 17%Z, #(-0.64207765181607E+00));
     (2%Z, 0%Z, #0.38493460186671E+00);
     (2%Z, 2%Z, #(-0.85214708824206E+00));
     (2%Z, 6%Z, #0.48972281541877E+01);
     (2%Z, 7%Z, #(-0.30502617256965E+01));
     (2%Z, 22%Z, #0.39420536879154E-01);
     (2%Z, 26%Z, #0.12558408424308E+00);
     (3%Z, 0%Z, #(-0.27999329698710E+00));
     (3%Z, 2%Z, #0.13899799569460E+01);
     (3%Z, 4%Z, #(-0.20189915023570E+01));
     (3%Z, 16%Z, #(-0.82147637173963E-02));
     (3%Z, 26%Z, #(-0.47596035734923E+00));
     (4%Z, 0%Z, #0.43984074473500E-01);
     (4%Z, 2%Z, #(-0.44476435428739E+00));
     (4%Z, 4%Z, #0.90572070719733E+00);
     (4%Z, 26%Z, #0.70522450087967E+00);
     (5%Z, 1%Z, #0.10770512626332E+00);
     (5%Z, 3%Z, #(-0.32913623258954E+00));
     (5%Z, 26%Z, #(-0.50871062041158E+00));
     (6%Z, 0%Z, #(-0.22175400873096E-01));
     (6%Z, 2%Z, #0.94260751665092E-01);
     (6%Z, 26%Z, #0.16436278447961E+00);
     (7%Z, 2%Z, #(-0.13503372241348E-01));
     (8%Z, 26%Z, #(-0.14834345352472E-01));
     (9%Z, 2%Z, #0.57922953628084E-03);
     (9%Z, 26%Z, #0.32308904703711E-02);
     (10%Z, 0%Z, #0.80964802996215E-04);
     (10%Z, 1%Z, #(-0.16557679795037E-03));
     (11%Z, 26%Z, #(-0.44923899061815E-04))].

(* src/r3/region3_hfe.rs:55-59 *)
Definition phi_reg3 (delta : num) (tau : num) : num :=
  let result := region3_hfe_n1 * (nln delta) in
  let steps := [(0%nat, 19%nat); (19%nat, 39%nat)] in
  result + (poly_powi_steps delta tau region3_hfe_IJn steps).

(* src/r3/region3_hfe.rs:62-66 *)
Definition phi_delta_reg3 (delta : num) (tau : num) : num :=
  let result := region3_hfe_n1 / delta in
  let steps := [(0%nat, 13%nat); (13%nat, 23%nat); (23%nat, 33%nat); (33%nat, 39%nat)] in
  result + (poly_i_powi_steps delta tau region3_hfe_IJn steps).

(* src/r3/region3_hfe.rs:69-73 *)
Definition phi_deltadelta_reg3 (delta : num) (tau : num) : num :=
  let result := ((- region3_hfe_n1) / delta) / delta in
  let steps := [(0%nat, 13%nat); (13%nat, 23%nat); (23%nat, 33%nat); (33%nat, 39%nat)] in
  result + (poly_ii_powi_steps delta tau region3_hfe_IJn steps).

(* src/r3/region3_hfe.rs:76-80 *)
Definition phi_tau_reg3 (delta : num) (tau : num) : num :=
  let result := #0.0 in
  let steps := [(0%nat, 13%nat); (13%nat, 23%nat); (23%nat, 33%nat); (33%nat, 39%nat)] in
  poly_j_powi_steps delta tau region3_hfe_IJn steps.

(* src/r3/region3_hfe.rs:83-87 *)
Definition phi_tautau_reg3 (delta : num) (tau : num) : num :=
  let result := #0.0 in
  let steps := [(0%nat, 13%nat); (13%nat, 23%nat); (23%nat, 33%nat); (33%nat, 39%nat)] in
  poly_jj_powi_steps delta tau region3_hfe_IJn steps.

(* src/r3/region3_hfe.rs:90-94 *)
Definition phi_deltatau_reg3 (delta : num) (tau : num) : num :=
  let result := #0.0 in
  let steps := [(0%nat, 17%nat); (17%nat, 34%nat); (34%nat, 39%nat)] in
  poly_ij_powi_steps delta tau region3_hfe_IJn steps.

(* src/r3/region3_hfe.rs:97-101 *)
Definition polys_0_j_powi_reg3 (delta : num) (tau : num) : (num * num) :=
  let steps := [(0%nat, 16%nat); (16%nat, 32%nat); (32%nat, 39%nat)] in
  let '(poly_phi, poly_tau) := polys_0_j_powi_steps delta tau region3_hfe_IJn steps in
  ((poly_phi + (region3_hfe_n1 * (nln delta))), poly_tau).

(* src/r3/region3_hfe.rs:103-107 *)
Definition polys_i_j_powi_reg3 (delta : num) (tau : num) : (num * num) :=
  let steps := [(0%nat, 16%nat); (16%nat, 32%nat); (32%nat, 39%nat)] in
  let '(poly_delta, poly_tau) := polys_i_j_powi_steps delta tau region3_hfe_IJn steps in
  ((poly_delta + (region3_hfe_n1 / delta)), poly_tau).

(* src/r3/region3_hfe.rs:111-121 *)
Definition polys_i_ii_ij_jj_powi_reg3 (delta : num) (tau : num) : (num * num * num * num) :=
  let phi_delta := region3_hfe_n1 / delta in
  let phi_deltadelta := ((- region3_hfe_n1) / delta) / delta in
  let steps := [(0%nat, 10%nat); (10%nat, 20%nat); (20%nat, 30%nat); (30%nat, 39%nat)] in
  let '(sub_phi_delta, sub_phi_deltadelta, phi_deltatau, phi_tautau) := polys_i_ii_ij_jj_powi_steps delta tau region3_hfe_IJn steps in
  let phi_delta := phi_delta + sub_phi_delta in
  let phi_deltadelta := phi_deltadelta + sub_phi_deltadelta in
  (phi_delta, phi_deltadelta, phi_deltatau, phi_tautau).

(* src/r3/region3_Td.rs:17-22 *)
Definition Td2p_reg3 (T : num) (d : num) : num :=
  let tau := TC_WATER / T in
  let delta := d / DC_WATER in
  let phi_delta := phi_delta_reg3 delta tau in
  ((((#0.001 * d) * RGAS_WATER) * T) * delta) * phi_delta.

(* src/r3/region3_Td.rs:25-29 *)
Definition Td2u_reg3 (T : num) (d : num) : num :=
  let tau := TC_WATER / T in
  let delta := d / DC_WATER in
  ((RGAS_WATER * T) * tau) * (phi_tau_reg3 delta tau).

(* src/r3/region3_Td.rs:32-37 *)
Definition Td2s_reg3 (T : num) (d : num) : num :=
  let tau := TC_WATER / T in
  let delta := d / DC_WATER in
  let '(poly_phi, poly_tau) := polys_0_j_powi_reg3 delta tau in
  RGAS_WATER * ((tau * poly_tau) - poly_phi).

(* src/r3/region3_Td.rs:40-45 *)
Definition Td2h_reg3 (T : num) (d : num) : num :=
  let tau := TC_WATER / T in
  let delta := d / DC_WATER in
  let '(poly_delta, poly_tau) := polys_i_j_powi_reg3 delta tau in
  (RGAS_WATER * T) * ((tau * poly_tau) + (delta * poly_delta)).

(* src/r3/region3_Td.rs:48-57 *)
Definition Td2cp_reg3 (T : num) (d : num) : num :=
  let tau := TC_WATER / T in
  let delta := d / DC_WATER in
  let '(phi_delta, phi_deltadelta, phi_deltatau, phi_tautau) := polys_i_ii_ij_jj_powi_reg3 delta tau in
  let a := delta * (phi_delta - (tau * phi_deltatau)) in
  let a := a * a in
  let b := delta * ((#2.0 * phi_delta) + (delta * phi_deltadelta)) in
  RGAS_WATER * ((((- tau) * tau) * phi_tautau) + (a / b)).

(* src/r3/region3_Td.rs:60-64 *)
Definition Td2cv_reg3 (T : num) (d : num) : num :=
  let tau := TC_WATER / T in
  let delta := d / DC_WATER in
  RGAS_WATER * (((- tau) * tau) * (phi_tautau_reg3 delta tau)).

(* src/r3/region3_Td.rs:67-79 *)
Definition Td2w_reg3 (T : num) (d : num) : num :=
  let tau := TC_WATER / T in
  let delta := d / DC_WATER in
  let '(phi_delta, phi_deltadelta, phi_deltatau, phi_tautau) := polys_i_ii_ij_jj_powi_reg3 delta tau in
  let a := (delta * phi_delta) - ((delta * tau) * phi_deltatau) in
  let a := a * a in
  let temp := ((#1000.0 * RGAS_WATER) * T) * ((((#2.0 * delta) * phi_delta) + ((delta * delta) * phi_deltadelta)) - (a / ((tau * tau) * phi_tautau))) in
  nsqrt temp.

(* src/r3/region3_Td_ext.rs:36-42 *)
Definition Td2g_reg3 (T : num) (d : num) : num :=
  let tau := TC_WATER / T in
  let delta := d / DC_WATER in
  let phi := phi_reg3 delta tau in
  let phidelta := phi_delta_reg3 delta tau in
  (RGAS_WATER * T) * (phi + (delta * phidelta)).

(* src/r3/region3_Td_ext.rs:45-49 *)
Definition Td2f_reg3 (T : num) (d : num) : num :=
  let tau := TC_WATER / T in
  let delta := d / DC_WATER in
  (RGAS_WATER * T) * (phi_reg3 delta tau).

(* src/r3/region3_Td_ext.rs:52-58 *)
Definition Td2dvdpct_reg3 (T : num) (d : num) : num :=
  let tau := TC_WATER / T in
  let delta := d / DC_WATER in
  let ddeltadpi := (#2.0 * (phi_delta_reg3 delta tau)) + (delta * (phi_deltadelta_reg3 delta tau)) in
  let ddeltadpi := ((d * RGAS_WATER) * T) * ddeltadpi in
  (((#(-1000.0) * DC_WATER) / d) / d) / ddeltadpi.

(* src/r3/region3_Td_ext.rs:61-63 *)
Definition Td2kt_reg3 (T : num) (d : num) : num :=
  (- d) * (Td2dvdpct_reg3 T d).

(* src/r3/region3_Td_ext.rs:66-73 *)
Definition Td2dvdtcp_reg3 (T : num) (d : num) : num :=
  let tau := TC_WATER / T in
  let delta := d / DC_WATER in
  let ddelta := phi_delta_reg3 delta tau in
  let d1 := ddelta - (tau * (phi_deltatau_reg3 delta tau)) in
  let d2 := (#2.0 * ddelta) + (delta * (phi_deltadelta_reg3 delta tau)) in
  ((d1 / d2) / T) / d.

(* src/r3/region3_Td_ext.rs:76-78 *)
Definition Td2ec_reg3 (T : num) (d : num) : num :=
  d * (Td2dvdtcp_reg3 T d).

(* src/r3/region3_Td_ext.rs:82-99 *)
Definition Td2joule_reg3 (T : num) (d : num) : num :=
  let tau := TC_WATER / T in
  let delta := d / DC_WATER in
  let v := #1.0 / d in
  let ddelta := phi_delta_reg3 delta tau in
  let ddeltatau := phi_deltatau_reg3 delta tau in
  let ddeltadelta := phi_deltadelta_reg3 delta tau in
  let cp1 := delta * (ddelta - (tau * ddeltatau)) in
  let cp1 := cp1 * cp1 in
  let cp2 := delta * ((#2.0 * ddelta) + (delta * ddeltadelta)) in
  let cp := RGAS_WATER * ((((#(-1.0) * tau) * tau) * (phi_tautau_reg3 delta tau)) + (cp1 / cp2)) in
  let d1 := ddelta - (tau * ddeltatau) in
  let d2 := (#2.0 * ddelta) + (delta * ddeltadelta) in
  let cex := (d1 / d2) / T in
  (#1000.0 * (v / cp)) * ((T * cex) - #1.0).

(* src/r3/region3_Td_ext.rs:104-106 *)
Definition Td2iJTC_reg3 (T : num) (d : num) : num :=
  ((- (Td2cp_reg3 T d)) * (Td2joule_reg3 T d)) / #1000.0.

(* src/r3/region3_Td_ext.rs:109-113 *)
Definition Td2dpdtcv_reg3 (T : num) (d : num) : num :=
  let tau := TC_WATER / T in
  let delta := d / DC_WATER in
  (((#0.001 * RGAS_WATER) * d) * delta) * ((phi_delta_reg3 delta tau) - (tau * (phi_deltatau_reg3 delta tau))).

(* src/r3/region3_Td_ext.rs:117-120 *)
Definition Td2pc_reg3 (T : num) (d : num) : num :=
  let p := Td2p_reg3 T d in
  (#1.0 / p) * (Td2dpdtcv_reg3 T d).

(* src/r3/region3_Td_ext.rs:123-130 *)
Definition Td2e_reg3 (T : num) (d : num) : num :=
  let tau := TC_WATER / T in
  let delta := d / DC_WATER in
  let phi := phi_reg3 delta tau in
  let phidelta := phi_delta_reg3 delta tau in
  let phitau := phi_tau_reg3 delta tau in
  RGAS_WATER * ((T * (phi + (delta * phidelta))) + (((T - Tt) * tau) * (phitau - phi))).

(* src/r3/region3_Td_ext.rs:133-137 *)
Definition Td2z_reg3 (T : num) (d : num) : num :=
  let v := #1.0 / d in
  let p := Td2p_reg3 T d in
  (((#1000.0 * p) * v) / RGAS_WATER) / T.

(* src/r3/region3_Td_ext.rs:141-145 *)
Definition Td2ks_reg3 (T : num) (d : num) : num :=
  let w := Td2w_reg3 T d in
  let p := Td2p_reg3 T d in
  (((#1.0E-6 * w) * w) * d) / p.

(* src/r3/region3_Td_ext.rs:152-156 *)
Definition Td2batap_reg3 (T : num) (d : num) : num :=
  let kt := Td2kt_reg3 T d in
  let p := Td2p_reg3 T d in
  d / (p * kt).

(* src/r3/region3_Td_ext.rs:160-163 *)
Definition Td2fi_reg3 (T : num) (d : num) : num :=
  let g := Td2g_reg3 T d in
  nexp ((g / RGAS_WATER) / T).

(* src/r3/region3_Td_ext.rs:167-171 *)
Definition Td2fu_reg3 (T : num) (d : num) : num :=
  let fi := Td2fi_reg3 T d in
  let p := Td2p_reg3 T d in
  p * fi.

(* src/r3/region3_Td_ext.rs:175-180 *)
Definition Td2alfap_reg3 (T : num) (d : num) : num :=
  let p := Td2p_reg3 T d in
  let ec := Td2ec_reg3 T d in
  let kt := Td2kt_reg3 T d in
  (ec / p) / kt.

(* src/r3/region3_Td_ext.rs:11-32 *)
Definition Td_ext_reg3 (T : num) (d : num) (o_id : Z) : num :=
  if Z.eqb o_id OF then
    Td2f_reg3 T d
  else if Z.eqb o_id OG then
    Td2g_reg3 T d
  else if Z.eqb o_id OZ then
    Td2z_reg3 T d
  else if Z.eqb o_id OKS then
    Td2ks_reg3 T d
  else if Z.eqb o_id OKT then
    Td2kt_reg3 T d
  else if Z.eqb o_id OEC then
    Td2ec_reg3 T d
  else if Z.eqb o_id OJTC then
    Td2joule_reg3 T d
  else if Z.eqb o_id OIJTC then
    Td2iJTC_reg3 T d
  else if Z.eqb o_id OPC then
    Td2pc_reg3 T d
  else if Z.eqb o_id ODVDP then
    Td2dvdpct_reg3 T d
  else if Z.eqb o_id ODPDT then
    Td2dpdtcv_reg3 T d
  else if Z.eqb o_id ODVDT then
    Td2dvdtcp_reg3 T d
  else if Z.eqb o_id OE then
    Td2e_reg3 T d
  else if Z.eqb o_id OBETAP then
    Td2batap_reg3 T d
  else if Z.eqb o_id OFI then
    Td2fi_reg3 T d
  else if Z.eqb o_id OFU then
    Td2fu_reg3 T d
  else if Z.eqb o_id OALFAP then
    Td2alfap_reg3 T d
  else 
    ofZ INVALID_OUTID.

End Model.
