(* Generated by tools/rs2v.py from src/r2/region2_gfe.rs, src/r2/region2_pT.rs, src/r2/region2_pT_ext.rs.
   Every definition cites the source lines it models; see tools/rs2v.py for the
   translation rules (mutable variables become let-rebinding, match on constants
   becomes an if-chain in source order, for loops over ranges become fold_left). *)
From Coq Require Import ZArith List Bool String.
From Verif Require Import Num Algo Constant.
Import ListNotations.
Open Scope num_scope.

Section Model.
Context {N : Arith}.

(* src/r2/region2_gfe.rs:16-16  J0 *)
Definition region2_gfe_J0 : list Z :=
  [0%Z;
     1%Z;
     (-5)%Z;
     (-4)%Z;
     (-3)%Z;
     (-2)%Z;
     (-1)%Z;
     2%Z;
     3%Z].

(* src/r2/region2_gfe.rs:17-27  n0 *)
Definition region2_gfe_n0 : list num :=
  [#(-0.96927686500217E+01);
     #0.10086655968018E+02;
     #(-0.5608791128302E-02);
     #0.71452738081455E-01;
     #(-0.40710498223928);
     #0.14240819171444E+01;
     #(-0.43839511319450E+01);
     #(-0.28408632460772);
     #0.21268463753307E-01].

(* src/r2/region2_gfe.rs:30-75  IJn *)
Definition region2_gfe_IJn : list (Z * Z * num) :=
  [(1%Z, 0%Z, #(-0.17731742473213E-02));
     (1%Z, 1%Z, #(-0.17834862292358E-01));
     (1%Z, 2%Z, #(-0.45996013696365E-01));
     (1%Z, 3%Z, #(-0.57581259083432E-01));
     (1%Z, 6%Z, #(-0.5032527872793E-01));
     (2%Z, 1%Z, #(-0.33032641670203E-04));
     (2%Z, 2%Z, #(-0.18948987516315E-03));
     (2%Z, 4%Z, #(-0.39392777243355E-02));
     (2%Z, 7%Z, #(-0.43797295650573E-01));
     (2%Z, 36%Z, #(-2.6674547914087E-05));
     (3%Z, 0%Z, #0.20481737692309E-07);
     (3%Z, 1%Z, #0.43870667284435E-06);
     (3%Z, 3%Z, #(-0.3227767723857E-04));
     (3%Z, 6%Z, #(-0.15033924542148E-02));
     (3%Z, 35%Z, #(-0.040668253562649));
     (4%Z, 1%Z, #(-7.8847309559367E-10));
     (4%Z, 2%Z, #1.2790717852285E-08);
     (4%Z, 3%Z, #4.8225372718507E-07);
     (5%Z, 7%Z, #2.2922076337661E-06);
     (6%Z, 3%Z, #(-1.6714766451061E-11));
     (6%Z, 16%Z, #(-2.1171472321355E-03));
     (6%Z, 35%Z, #(-23.895741934104));
     (7%Z, 0%Z, #(-5.905956432427E-18));
     (7%Z, 11%Z, #(-1.2621808899101E-06));
     (7%Z, 25%Z, #(-0.038946842435739));
     (8%Z, 8%Z, #1.1256211360459E-11);
     (8%Z, 36%Z, #(-8.2311340897998));
     (9%Z, 13%Z, #1.9809712802088E-08);
     (10%Z, 4%Z, #1.0406965210174E-19);
     (10%Z, 10%Z, #(-1.0234747095929E-13));
     (10%Z, 14%Z, #(-1.0018179379511E-09));
     (16%Z, 29%Z, #(-8.0882908646985E-11));
     (16%Z, 50%Z, #0.10693031879409);
     (18%Z, 57%Z, #(-0.33662250574171));
     (20%Z, 20%Z, #8.9185845355421E-25);
     (20%Z, 35%Z, #3.0629316876232E-13);
     (20%Z, 48%Z, #(-4.2002467698208E-06));
     (21%Z, 21%Z, #(-5.9056029685639E-26));
     (22%Z, 53%Z, #3.7826947613457E-06);
     (23%Z, 39%Z, #(-1.2768608934681E-15));
     (24%Z, 26%Z, #7.3087610595061E-29);
     (24%Z, 40%Z, #5.5414715350778E-17);
     (24%Z, 58%Z, #(-9.436970724121E-07))].

(* src/r2/region2_gfe.rs:78-84 *)
Definition gamma0_reg2 (pi : num) (tau : num) : num :=
  let result := nln pi in
  let result := fold_left (fun result i =>
      result + ((nth i region2_gfe_n0 (#0.0)) * (powi tau (nth i region2_gfe_J0 0%Z))))
    (seq 0 9) result in
  result.

(* src/r2/region2_gfe.rs:87-89 *)
Definition gamma0_pi_reg2 (pi : num) : num :=
  #1.0 / pi.

(* src/r2/region2_gfe.rs:92-94 *)
Definition gamma0_pipi_reg2 (pi : num) : num :=
  (#(-1.0) / pi) / pi.

(* src/r2/region2_gfe.rs:97-103 *)
Definition gamma0_tau_reg2 (tau : num) : num :=
  let result := #0.0 in
  let result := fold_left (fun result i =>
      result + (((nth i region2_gfe_n0 (#0.0)) * (ofZ (nth i region2_gfe_J0 0%Z))) * (powi tau (((nth i region2_gfe_J0 0%Z) - 1%Z)%Z))))
    (seq 0 9) result in
  result.

(* src/r2/region2_gfe.rs:106-112 *)
Definition gamma0_tautau_reg2 (pi : num) (tau : num) : num :=
  let result := #0.0 in
  let result := fold_left (fun result i =>
      result + (((nth i region2_gfe_n0 (#0.0)) * (ofZ ((nth i region2_gfe_J0 0%Z) * ((nth i region2_gfe_J0 0%Z) - 1%Z)%Z)%Z)) * (powi tau (((nth i region2_gfe_J0 0%Z) - 2%Z)%Z))))
    (seq 0 9) result in
  result.

(* src/r2/region2_gfe.rs:115-117 *)
Definition gamma0_pitau_reg2 : num :=
  #0.0.

(* src/r2/region2_gfe.rs:120-123 *)
Definition gammar_reg2 (pi : num) (tau : num) : num :=
  let steps := [(0%nat, 19%nat); (19%nat, 38%nat); (38%nat, 43%nat)] in
  poly_powi_steps pi (tau - #0.5) region2_gfe_IJn steps.

(* src/r2/region2_gfe.rs:126-131 *)
Definition gammar_pi_reg2 (pi : num) (tau : num) : num :=
  let result := #0.0 in
  let tau1 := tau - #0.5 in
  let steps := [(0%nat, 16%nat); (16%nat, 32%nat); (32%nat, 43%nat)] in
  poly_i_powi_steps pi (tau - #0.5) region2_gfe_IJn steps.

(* src/r2/region2_gfe.rs:134-137 *)
Definition gammar_pipi_reg2 (pi : num) (tau : num) : num :=
  let steps := [(0%nat, 13%nat); (13%nat, 26%nat); (26%nat, 43%nat)] in
  poly_ii_powi_steps pi (tau - #0.5) region2_gfe_IJn steps.

(* src/r2/region2_gfe.rs:140-143 *)
Definition gammar_tau_reg2 (pi : num) (tau : num) : num :=
  let steps := [(0%nat, 13%nat); (13%nat, 26%nat); (26%nat, 43%nat)] in
  poly_j_powi_steps pi (tau - #0.5) region2_gfe_IJn steps.

(* src/r2/region2_gfe.rs:146-149 *)
Definition gammar_tautau_reg2 (pi : num) (tau : num) : num :=
  let steps := [(0%nat, 13%nat); (13%nat, 26%nat); (26%nat, 43%nat)] in
  poly_jj_powi_steps pi (tau - #0.5) region2_gfe_IJn steps.

(* src/r2/region2_gfe.rs:152-155 *)
Definition gammar_pitau_reg2 (pi : num) (tau : num) : num :=
  let steps := [(0%nat, 13%nat); (13%nat, 26%nat); (26%nat, 43%nat)] in
  poly_ij_powi_steps pi (tau - #0.5) region2_gfe_IJn steps.

(* src/r2/region2_gfe.rs:159-163 *)
Definition polys_0_j_powi_reg2 (pi : num) (tau : num) : (num * num) :=
  let steps := [(0%nat, 13%nat); (13%nat, 26%nat); (26%nat, 43%nat)] in
  let '(gammar, gammar_tau) := polys_0_j_powi_steps pi (tau - #0.5) region2_gfe_IJn steps in
  (gammar, gammar_tau).

(* src/r2/region2_gfe.rs:165-169 *)
Definition polys_i_j_powi_reg2 (pi : num) (tau : num) : (num * num) :=
  let steps := [(0%nat, 13%nat); (13%nat, 26%nat); (26%nat, 43%nat)] in
  let '(gammar, gammar_tau) := polys_i_j_powi_steps pi (tau - #0.5) region2_gfe_IJn steps in
  (gammar, gammar_tau).

(* src/r2/region2_gfe.rs:171-176 *)
Definition polys_i_ii_ij_jj_powi_reg2 (pi : num) (tau : num) : (num * num * num * num) :=
  let steps := [(0%nat, 11%nat); (11%nat, 22%nat); (22%nat, 33%nat); (33%nat, 43%nat)] in
  let '(gammar_pi, gammar_pipi, gammar_pitau, gammar_tautau) := polys_i_ii_ij_jj_powi_steps pi (tau - #0.5) region2_gfe_IJn steps in
  (gammar_pi, gammar_pipi, gammar_pitau, gammar_tautau).

(* src/r2/region2_pT.rs:19-19  r2Tstar *)
Definition r2Tstar : num :=
  #540.0.

(* src/r2/region2_pT.rs:20-20  r2pstar *)
Definition r2pstar : num :=
  #1.0.

(* src/r2/region2_pT.rs:22-27 *)
Definition pT2v_reg2 (p : num) (T : num) : num :=
  let tau := r2Tstar / T in
  let pi := p in
  let gammar_pi := gammar_pi_reg2 pi tau in
  ((#0.001 * RGAS_WATER) * T) * ((gamma0_pi_reg2 pi) + gammar_pi).

(* src/r2/region2_pT.rs:29-34 *)
Definition pT2h_reg2 (p : num) (T : num) : num :=
  let tau := r2Tstar / T in
  let pi := p in
  let gammar_tau := gammar_tau_reg2 pi tau in
  (RGAS_WATER * r2Tstar) * ((gamma0_tau_reg2 tau) + gammar_tau).

(* src/r2/region2_pT.rs:36-52 *)
Definition pT2s_reg2 (p : num) (T : num) : num :=
  let tau := r2Tstar / T in
  let pi := p in
  let gamma0 := nln pi in
  let gamma0_tau := #0.0 in
  let gamma0_item := #0.0 in
  let '(gamma0_item, gamma0, gamma0_tau) := fold_left (fun '(gamma0_item, gamma0, gamma0_tau) i =>
      let gamma0_item := (nth i region2_gfe_n0 (#0.0)) * (powi tau (nth i region2_gfe_J0 0%Z)) in
      let gamma0 := gamma0 + gamma0_item in
      let gamma0_tau := gamma0_tau + (gamma0_item * (ofZ (nth i region2_gfe_J0 0%Z))) in
      (gamma0_item, gamma0, gamma0_tau))
    (seq 0 9) (gamma0_item, gamma0, gamma0_tau) in
  let gamma0_tau := gamma0_tau / tau in
  let '(gammar, gammar_tau) := polys_0_j_powi_reg2 pi tau in
  RGAS_WATER * ((tau * (gamma0_tau + gammar_tau)) - (gamma0 + gammar)).

(* src/r2/region2_pT.rs:54-60 *)
Definition pT2u_reg2 (p : num) (T : num) : num :=
  let tau := r2Tstar / T in
  let pi := p in
  let '(gammar_pi, gammar_tau) := polys_i_j_powi_reg2 pi tau in
  (RGAS_WATER * T) * ((tau * ((gamma0_tau_reg2 tau) + gammar_tau)) - (pi * ((gamma0_pi_reg2 pi) + gammar_pi))).

(* src/r2/region2_pT.rs:62-66 *)
Definition pT2cp_reg2 (p : num) (T : num) : num :=
  let tau := r2Tstar / T in
  let pi := p in
  (((- RGAS_WATER) * tau) * tau) * ((gamma0_tautau_reg2 pi tau) + (gammar_tautau_reg2 pi tau)).

(* src/r2/region2_pT.rs:68-80 *)
Definition pT2cv_reg2 (p : num) (T : num) : num :=
  let tau := r2Tstar / T in
  let pi := p in
  let gamma0_tautau := gamma0_tautau_reg2 pi tau in
  let '(gammar_pi, gammar_pipi, gammar_pitau, gammar_tautau) := polys_i_ii_ij_jj_powi_reg2 pi tau in
  let a := #1.0 + (pi * (gammar_pi - (tau * gammar_pitau))) in
  let b := (a * a) / (#1.0 - ((pi * pi) * gammar_pipi)) in
  let c := ((- tau) * tau) * (gamma0_tautau + gammar_tautau) in
  RGAS_WATER * (c - b).

(* src/r2/region2_pT.rs:82-98 *)
Definition pT2w_reg2 (p : num) (T : num) : num :=
  let tau := r2Tstar / T in
  let pi := p in
  let gamma0_tautau := gamma0_tautau_reg2 pi tau in
  let '(gammar_pi, gammar_pipi, gammar_pitau, gammar_tautau) := polys_i_ii_ij_jj_powi_reg2 pi tau in
  let a := pi * gammar_pi in
  let a := a * a in
  let r1 := ((#1000.0 * RGAS_WATER) * T) * ((#1.0 + ((#2.0 * pi) * gammar_pi)) + a) in
  let b := (#1.0 + (pi * gammar_pi)) - ((tau * pi) * gammar_pitau) in
  let b := b * b in
  let r2 := (#1.0 - ((pi * pi) * gammar_pipi)) + (b / ((tau * tau) * (gamma0_tautau + gammar_tautau))) in
  let r := r1 / r2 in
  nsqrt r.

(* src/r2/region2_pT_ext.rs:35-39 *)
Definition pT2ks_reg2 (p : num) (T : num) : num :=
  let v := pT2v_reg2 p T in
  let w := pT2w_reg2 p T in
  (((#1.0E-6 * w) * w) / v) / p.

(* src/r2/region2_pT_ext.rs:98-104 *)
Definition pT2dvdtcp_reg2 (p : num) (T : num) : num :=
  let tau := r2Tstar / T in
  let pi := p in
  let gummapi := (gamma0_pi_reg2 pi) + (gammar_pi_reg2 pi tau) in
  let gummapitau := gamma0_pitau_reg2 + (gammar_pitau_reg2 pi tau) in
  (#0.001 * RGAS_WATER) * (gummapi - (tau * gummapitau)).

(* src/r2/region2_pT_ext.rs:43-48 *)
Definition pT2ec_reg2 (p : num) (T : num) : num :=
  let tau := r2Tstar / T in
  let pi := p in
  let d := #1.0 / (pT2v_reg2 p T) in
  d * (pT2dvdtcp_reg2 p T).

(* src/r2/region2_pT_ext.rs:51-57 *)
Definition pT2kt_reg2 (p : num) (T : num) : num :=
  let tau := r2Tstar / T in
  let pi := p in
  let gummapipi := (gamma0_pipi_reg2 pi) + (gammar_pipi_reg2 pi tau) in
  let gummapi := (gamma0_pi_reg2 pi) + (gammar_pi_reg2 pi tau) in
  - (gummapipi / gummapi).

(* src/r2/region2_pT_ext.rs:61-65 *)
Definition pT2g_reg2 (p : num) (T : num) : num :=
  let tau := r2Tstar / T in
  let pi := p in
  (RGAS_WATER * T) * ((gamma0_reg2 pi tau) + (gammar_reg2 pi tau)).

(* src/r2/region2_pT_ext.rs:69-73 *)
Definition pT2f_reg2 (p : num) (T : num) : num :=
  let tau := r2Tstar / T in
  let pi := p in
  (RGAS_WATER * T) * (((gamma0_reg2 pi tau) + (gammar_reg2 pi tau)) - (p * ((gamma0_pi_reg2 pi) + (gammar_pi_reg2 pi tau)))).

(* src/r2/region2_pT_ext.rs:77-87 *)
Definition pT2joule_reg2 (p : num) (T : num) : num :=
  let tau := r2Tstar / T in
  let pi := p in
  let gummapi := (gamma0_pi_reg2 pi) + (gammar_pi_reg2 pi tau) in
  let gummatautau := (gamma0_tautau_reg2 pi tau) + (gammar_tautau_reg2 pi tau) in
  let gummapitau := gamma0_pitau_reg2 + (gammar_pitau_reg2 pi tau) in
  let v := (RGAS_WATER * T) * gummapi in
  let cp := (((- RGAS_WATER) * tau) * tau) * gummatautau in
  let TCex_1 := ((- tau) * gummapitau) / gummapi in
  (v / cp) * TCex_1.

(* src/r2/region2_pT_ext.rs:90-95 *)
Definition pT2dvdpct_reg2 (p : num) (T : num) : num :=
  let tau := r2Tstar / T in
  let pi := p in
  let gummapipi := (gamma0_pipi_reg2 pi) + (gammar_pipi_reg2 pi tau) in
  ((#0.001 * RGAS_WATER) * T) * gummapipi.

(* src/r2/region2_pT_ext.rs:109-114 *)
Definition pT2iJTC_reg2 (p : num) (T : num) : num :=
  let tau := r2Tstar / T in
  let pi := p in
  let gummapitau := gamma0_pitau_reg2 + (gammar_pitau_reg2 pi tau) in
  ((#0.001 * RGAS_WATER) * r2Tstar) * gummapitau.

(* src/r2/region2_pT_ext.rs:121-128 *)
Definition pT2dpdtcv_reg2 (p : num) (T : num) : num :=
  let tau := r2Tstar / T in
  let pi := p in
  let gummapi := (gamma0_pi_reg2 pi) + (gammar_pi_reg2 pi tau) in
  let gummapitau := gamma0_pitau_reg2 + (gammar_pitau_reg2 pi tau) in
  let gummapipi := (gamma0_pipi_reg2 pi) + (gammar_pipi_reg2 pi tau) in
  (#1.0 * ((gummapitau * r2Tstar) - (gummapi * T))) / ((T * T) * gummapipi).

(* src/r2/region2_pT_ext.rs:132-134 *)
Definition pT2pc_reg2 (p : num) (T : num) : num :=
  (#1.0 / p) * (pT2dpdtcv_reg2 p T).

(* src/r2/region2_pT_ext.rs:137-143 *)
Definition pT2e_reg2 (p : num) (T : num) : num :=
  let tau := r2Tstar / T in
  let pi := p in
  let gumma := (gamma0_reg2 pi tau) + (gammar_reg2 pi tau) in
  let gummatau := (gamma0_tau_reg2 tau) + (gammar_tau_reg2 pi tau) in
  RGAS_WATER * ((T * gumma) + ((T - Tt) * ((tau * gummatau) - gumma))).

(* src/r2/region2_pT_ext.rs:146-149 *)
Definition pT2z_reg2 (p : num) (T : num) : num :=
  let v := pT2v_reg2 p T in
  (((#1000.0 * p) * v) / RGAS_WATER) / T.

(* src/r2/region2_pT_ext.rs:155-159 *)
Definition pT2batap_reg2 (p : num) (T : num) : num :=
  let v := pT2v_reg2 p T in
  let kt := pT2kt_reg2 p T in
  #1.0 / ((p * v) * kt).

(* src/r2/region2_pT_ext.rs:163-169 *)
Definition pT2fi_reg2 (p : num) (T : num) : num :=
  let g := pT2g_reg2 p T in
  let tau := r2Tstar / T in
  let pi := p in
  let g0 := (T * RGAS_WATER) * (gamma0_reg2 pi tau) in
  nexp (((g - g0) / RGAS_WATER) / T).

(* src/r2/region2_pT_ext.rs:173-176 *)
Definition pT2fu_reg2 (p : num) (T : num) : num :=
  let fi := pT2fi_reg2 p T in
  p * fi.

(* src/r2/region2_pT_ext.rs:180-184 *)
Definition pT2alfap_reg2 (p : num) (T : num) : num :=
  let ec := pT2ec_reg2 p T in
  let kt := pT2kt_reg2 p T in
  (ec / p) / kt.

(* src/r2/region2_pT_ext.rs:10-31 *)
Definition pT_ext_reg2 (p : num) (T : num) (o_id : Z) : num :=
  if Z.eqb o_id OKS then
    pT2ks_reg2 p T
  else if Z.eqb o_id OF then
    pT2f_reg2 p T
  else if Z.eqb o_id OG then
    pT2g_reg2 p T
  else if Z.eqb o_id OZ then
    pT2z_reg2 p T
  else if Z.eqb o_id OKT then
    pT2kt_reg2 p T
  else if Z.eqb o_id OEC then
    pT2ec_reg2 p T
  else if Z.eqb o_id OJTC then
    pT2joule_reg2 p T
  else if Z.eqb o_id OIJTC then
    pT2iJTC_reg2 p T
  else if Z.eqb o_id OPC then
    pT2pc_reg2 p T
  else if Z.eqb o_id ODPDT then
    pT2dpdtcv_reg2 p T
  else if Z.eqb o_id ODVDP then
    pT2dvdpct_reg2 p T
  else if Z.eqb o_id ODVDT then
    pT2dvdtcp_reg2 p T
  else if Z.eqb o_id OE then
    pT2e_reg2 p T
  else if Z.eqb o_id OBETAP then
    pT2batap_reg2 p T
  else if Z.eqb o_id OFI then
    pT2fi_reg2 p T
  else if Z.eqb o_id OFU then
    pT2fu_reg2 p T
  else if Z.eqb o_id OALFAP then
    pT2alfap_reg2 p T
  else 
    ofZ INVALID_OUTID.

End Model.
