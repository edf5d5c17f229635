(* Generated by tools/rs2v.py from src/r5/region5_gfe.rs, src/r5/region5_pT.rs, src/r5/region5_pT_ext.rs.
   Every definition cites the source lines it models; see tools/rs2v.py for the
   translation rules (mutable variables become let-rebinding, match on constants
   becomes an if-chain in source order, for loops over ranges become fold_left). *)
From Coq Require Import ZArith List Bool String.
From Verif Require Import Num Algo Constant.
Import ListNotations.
Open Scope num_scope.

Section Model.
Context {N : Arith}.

(* src/r5/region5_gfe.rs:7-7  r5Pstar *)
Definition r5Pstar : num :=
  #1.0.

(* src/r5/region5_gfe.rs:8-8  r5Tstar *)
Definition r5Tstar : num :=
  #1000.0.

(* src/r5/region5_gfe.rs:14-14  Jo *)
Definition region5_gfe_Jo : list Z :=
  [0%Z; 1%Z; (-3)%Z; (-2)%Z; (-1)%Z; 2%Z].

(* src/r5/region5_gfe.rs:16-23  no *)
Definition region5_gfe_no : list num :=
  [#(-0.13179983674201e+2); #0.68540841634434e+1; #(-0.24805148933466e-1); #0.36901534980333; #(-0.31161318213925e+1); #(-0.32961626538917)].

(* src/r5/region5_gfe.rs:67-74  IJn *)
Definition region5_gfe_IJn : list (Z * Z * num) :=
  [(1%Z, 1%Z, #0.15736404855259e-2); (1%Z, 2%Z, #0.90153761673944e-3); (1%Z, 3%Z, #(-0.50270077677648e-2)); (2%Z, 3%Z, #0.22440037409485e-5); (2%Z, 9%Z, #(-0.41163275453471e-5)); (3%Z, 7%Z, #0.37919454822955e-7)].

(* src/r5/region5_gfe.rs:26-32 *)
Definition gamma0_reg5 (pi : num) (tau : num) : num :=
  let result := nln pi in
  let result := fold_left (fun result i =>
      result + ((nth i region5_gfe_no (#0.0)) * (powi tau (nth i region5_gfe_Jo 0%Z))))
    (seq 0 6) result in
  result.

(* src/r5/region5_gfe.rs:35-37 *)
Definition gamma0_pi_reg5 (pi : num) : num :=
  #1.0 / pi.

(* src/r5/region5_gfe.rs:40-42 *)
Definition gamma0_pipi_reg5 (pi : num) : num :=
  (#(-1.0) / pi) / pi.

(* src/r5/region5_gfe.rs:44-50 *)
Definition gamma0_tau_reg5 (tau : num) : num :=
  let result := #0.0 in
  let result := fold_left (fun result i =>
      result + (((nth i region5_gfe_no (#0.0)) * (ofZ (nth i region5_gfe_Jo 0%Z))) * (powi tau (((nth i region5_gfe_Jo 0%Z) - 1%Z)%Z))))
    (seq 0 6) result in
  result.

(* src/r5/region5_gfe.rs:52-58 *)
Definition gamma0_tautau_reg5 (tau : num) : num :=
  let result := #0.0 in
  let result := fold_left (fun result i =>
      result + (((nth i region5_gfe_no (#0.0)) * (ofZ ((nth i region5_gfe_Jo 0%Z) * ((nth i region5_gfe_Jo 0%Z) - 1%Z)%Z)%Z)) * (powi tau (((nth i region5_gfe_Jo 0%Z) - 2%Z)%Z))))
    (seq 0 6) result in
  result.

(* src/r5/region5_gfe.rs:60-62 *)
Definition gamma0_pitau_reg5 : num :=
  #0.0.

(* src/r5/region5_gfe.rs:76-78 *)
Definition gammar_reg5 (pi : num) (tau : num) : num :=
  poly_powi pi tau region5_gfe_IJn.

(* src/r5/region5_gfe.rs:83-85 *)
Definition gammar_pi_reg5 (pi : num) (tau : num) : num :=
  poly_i_powi pi tau region5_gfe_IJn.

(* src/r5/region5_gfe.rs:87-89 *)
Definition gammar_pipi_reg5 (pi : num) (tau : num) : num :=
  poly_ii_powi pi tau region5_gfe_IJn.

(* src/r5/region5_gfe.rs:91-93 *)
Definition gammar_tau_reg5 (pi : num) (tau : num) : num :=
  poly_j_powi pi tau region5_gfe_IJn.

(* src/r5/region5_gfe.rs:96-98 *)
Definition gammar_tautau_reg5 (pi : num) (tau : num) : num :=
  poly_jj_powi pi tau region5_gfe_IJn.

(* src/r5/region5_gfe.rs:100-102 *)
Definition gammar_pitau_reg5 (pi : num) (tau : num) : num :=
  poly_ij_powi pi tau region5_gfe_IJn.

(* src/r5/region5_pT.rs:10-15 *)
Definition pT2v_reg5 (p : num) (T : num) : num :=
  let pi := p / r5Pstar in
  let tau := r5Tstar / T in
  let a := pi * ((gamma0_pi_reg5 pi) + (gammar_pi_reg5 pi tau)) in
  (((RGAS_WATER * T) / p) * a) * #0.001.

(* src/r5/region5_pT.rs:17-24 *)
Definition pT2u_reg5 (p : num) (T : num) : num :=
  let pi := p / r5Pstar in
  let tau := r5Tstar / T in
  let '(sum_gammar_pi, sum_gammar_tau) := polys_i_j_powi pi tau region5_gfe_IJn in
  let a := (tau * ((gamma0_tau_reg5 tau) + sum_gammar_tau)) - (pi * ((gamma0_pi_reg5 pi) + sum_gammar_pi)) in
  (RGAS_WATER * T) * a.

(* src/r5/region5_pT.rs:26-32 *)
Definition pT2s_reg5 (p : num) (T : num) : num :=
  let pi := p / r5Pstar in
  let tau := r5Tstar / T in
  let '(sum_gammar, sum_gammar_tau) := polys_0_j_powi pi tau region5_gfe_IJn in
  let a := (tau * ((gamma0_tau_reg5 tau) + sum_gammar_tau)) - ((gamma0_reg5 pi tau) + sum_gammar) in
  RGAS_WATER * a.

(* src/r5/region5_pT.rs:34-39 *)
Definition pT2h_reg5 (p : num) (T : num) : num :=
  let pi := p / r5Pstar in
  let tau := r5Tstar / T in
  let a := tau * ((gamma0_tau_reg5 tau) + (gammar_tau_reg5 pi tau)) in
  (RGAS_WATER * T) * a.

(* src/r5/region5_pT.rs:41-46 *)
Definition pT2cp_reg5 (p : num) (T : num) : num :=
  let pi := p / r5Pstar in
  let tau := r5Tstar / T in
  let a := ((- tau) * tau) * ((gamma0_tautau_reg5 tau) + (gammar_tautau_reg5 pi tau)) in
  RGAS_WATER * a.

(* src/r5/region5_pT.rs:48-58 *)
Definition pT2cv_reg5 (p : num) (T : num) : num :=
  let pi := p / r5Pstar in
  let tau := r5Tstar / T in
  let '(gammar_pi, gammar_pipi, gammar_pitau, gammar_tautau) := polys_i_ii_ij_jj_powi pi tau region5_gfe_IJn in
  let a := ((- tau) * tau) * ((gamma0_tautau_reg5 tau) + gammar_tautau) in
  let b := (#1.0 + (pi * gammar_pi)) - ((tau * pi) * gammar_pitau) in
  let c := #1.0 - ((pi * pi) * gammar_pipi) in
  (RGAS_WATER * (a - (b * b))) / c.

(* src/r5/region5_pT.rs:60-76 *)
Definition pT2w_reg5 (p : num) (T : num) : num :=
  let tau := r5Tstar / T in
  let pi := p / r5Pstar in
  let '(gammar_pi, gammar_pipi, gammar_pitau, gammar_tautau) := polys_i_ii_ij_jj_powi pi tau region5_gfe_IJn in
  let temp := pi * gammar_pi in
  let a := #1.0 + (temp * (#2.0 + temp)) in
  let b := #1.0 - ((pi * pi) * gammar_pipi) in
  let c := #1.0 + (pi * (gammar_pi - (tau * gammar_pitau))) in
  let d := (tau * tau) * ((gamma0_tautau_reg5 tau) + gammar_tautau) in
  let w := (((RGAS_WATER * T) * a) / (b + ((c * c) / d))) * #1000.0 in
  let w :=
    if w <? #0.0 then
      #0.0
    else w in
  nsqrt w.

(* src/r5/region5_pT_ext.rs:35-39 *)
Definition pT2g_reg5 (p : num) (T : num) : num :=
  let tau := r5Tstar / T in
  let pi := p / r5Pstar in
  (RGAS_WATER * T) * ((gamma0_reg5 pi tau) + (gammar_reg5 pi tau)).

(* src/r5/region5_pT_ext.rs:43-47 *)
Definition pT2f_reg5 (p : num) (T : num) : num :=
  let tau := r5Tstar / T in
  let pi := p / r5Pstar in
  (RGAS_WATER * T) * (((gamma0_reg5 pi tau) + (gammar_reg5 pi tau)) - (p * ((gamma0_pi_reg5 pi) + (gammar_pi_reg5 pi tau)))).

(* src/r5/region5_pT_ext.rs:51-57 *)
Definition pT2kt_reg5 (p : num) (T : num) : num :=
  let tau := r5Tstar / T in
  let pi := p / r5Pstar in
  let gummapipi := (gamma0_pipi_reg5 pi) + (gammar_pipi_reg5 pi tau) in
  let gummapi := (gamma0_pi_reg5 pi) + (gammar_pi_reg5 pi tau) in
  - (gummapipi / gummapi).

(* src/r5/region5_pT_ext.rs:60-66 *)
Definition pT2dvdtcp_reg5 (p : num) (T : num) : num :=
  let tau := r5Tstar / T in
  let pi := p / r5Pstar in
  let gummapi := (gamma0_pi_reg5 pi) + (gammar_pi_reg5 pi tau) in
  let gummapitau := gamma0_pitau_reg5 + (gammar_pitau_reg5 pi tau) in
  (#0.001 * RGAS_WATER) * (gummapi - (tau * gummapitau)).

(* src/r5/region5_pT_ext.rs:71-74 *)
Definition pT2ec_reg5 (p : num) (T : num) : num :=
  let d := #1.0 / (pT2v_reg5 p T) in
  d * (pT2dvdtcp_reg5 p T).

(* src/r5/region5_pT_ext.rs:77-82 *)
Definition pT2dvdpct_reg5 (p : num) (T : num) : num :=
  let tau := r5Tstar / T in
  let pi := p / r5Pstar in
  let gummapipi := (gamma0_pipi_reg5 pi) + (gammar_pipi_reg5 pi tau) in
  ((#0.001 * RGAS_WATER) * T) * gummapipi.

(* src/r5/region5_pT_ext.rs:86-96 *)
Definition pT2joule_reg5 (p : num) (T : num) : num :=
  let tau := r5Tstar / T in
  let pi := p / r5Pstar in
  let gummapi := (gamma0_pi_reg5 pi) + (gammar_pi_reg5 pi tau) in
  let gummatautau := (gamma0_tautau_reg5 tau) + (gammar_tautau_reg5 pi tau) in
  let gummapitau := gamma0_pitau_reg5 + (gammar_pitau_reg5 pi tau) in
  let v := ((#0.001 * RGAS_WATER) * T) * gummapi in
  let cp := (((- RGAS_WATER) * tau) * tau) * gummatautau in
  let TCex_1 := ((- tau) * gummapitau) / gummapi in
  (#1000.0 * (v / cp)) * TCex_1.

(* src/r5/region5_pT_ext.rs:101-106 *)
Definition pT2iJTC_reg5 (p : num) (T : num) : num :=
  let tau := r5Tstar / T in
  let pi := p / r5Pstar in
  let gummapitau := gamma0_pitau_reg5 + (gammar_pitau_reg5 pi tau) in
  ((#0.001 * RGAS_WATER) * r5Tstar) * gummapitau.

(* src/r5/region5_pT_ext.rs:109-116 *)
Definition pT2dpdtcv_reg5 (p : num) (T : num) : num :=
  let tau := r5Tstar / T in
  let pi := p / r5Pstar in
  let gummapi := (gamma0_pi_reg5 pi) + (gammar_pi_reg5 pi tau) in
  let gummapitau := gamma0_pitau_reg5 + (gammar_pitau_reg5 pi tau) in
  let gummapipi := (gamma0_pipi_reg5 pi) + (gammar_pipi_reg5 pi tau) in
  (r5Pstar * ((gummapitau * r5Tstar) - (gummapi * T))) / ((T * T) * gummapipi).

(* src/r5/region5_pT_ext.rs:120-122 *)
Definition pT2pc_reg5 (p : num) (T : num) : num :=
  (#1.0 / p) * (pT2dpdtcv_reg5 p T).

(* src/r5/region5_pT_ext.rs:124-130 *)
Definition pT2e_reg5 (p : num) (T : num) : num :=
  let tau := r5Tstar / T in
  let pi := p / r5Pstar in
  let gumma := (gamma0_reg5 pi tau) + (gammar_reg5 pi tau) in
  let gummatau := (gamma0_tau_reg5 tau) + (gammar_tau_reg5 pi tau) in
  RGAS_WATER * ((T * gumma) + ((T - Tt) * ((tau * gummatau) - gumma))).

(* src/r5/region5_pT_ext.rs:133-136 *)
Definition pT2z_reg5 (p : num) (T : num) : num :=
  let v := pT2v_reg5 p T in
  (((#1000.0 * p) * v) / RGAS_WATER) / T.

(* src/r5/region5_pT_ext.rs:140-144 *)
Definition pT2ks_reg5 (p : num) (T : num) : num :=
  let v := pT2v_reg5 p T in
  let w := pT2w_reg5 p T in
  (((#1.0E-6 * w) * w) / v) / p.

(* src/r5/region5_pT_ext.rs:150-154 *)
Definition pT2batap_reg5 (p : num) (T : num) : num :=
  let v := pT2v_reg5 p T in
  let kt := pT2kt_reg5 p T in
  #1.0 / ((p * v) * kt).

(* src/r5/region5_pT_ext.rs:158-164 *)
Definition pT2fi_reg5 (p : num) (T : num) : num :=
  let g := pT2g_reg5 p T in
  let tau := r5Tstar / T in
  let pi := p / r5Pstar in
  let g0 := (T * RGAS_WATER) * (gamma0_reg5 pi tau) in
  nexp (((g - g0) / RGAS_WATER) / T).

(* src/r5/region5_pT_ext.rs:168-171 *)
Definition pT2fu_reg5 (p : num) (T : num) : num :=
  let fi := pT2fi_reg5 p T in
  p * fi.

(* src/r5/region5_pT_ext.rs:175-179 *)
Definition pT2alfap_reg5 (p : num) (T : num) : num :=
  let ec := pT2ec_reg5 p T in
  let kt := pT2kt_reg5 p T in
  (ec / p) / kt.

(* src/r5/region5_pT_ext.rs:10-31 *)
Definition pT_ext_reg5 (p : num) (T : num) (o_id : Z) : num :=
  if Z.eqb o_id OF then
    pT2f_reg5 p T
  else if Z.eqb o_id OG then
    pT2g_reg5 p T
  else if Z.eqb o_id OZ then
    pT2z_reg5 p T
  else if Z.eqb o_id OKS then
    pT2ks_reg5 p T
  else if Z.eqb o_id OKT then
    pT2kt_reg5 p T
  else if Z.eqb o_id OEC then
    pT2ec_reg5 p T
  else if Z.eqb o_id OJTC then
    pT2joule_reg5 p T
  else if Z.eqb o_id OIJTC then
    pT2iJTC_reg5 p T
  else if Z.eqb o_id OPC then
    pT2pc_reg5 p T
  else if Z.eqb o_id ODPDT then
    pT2dpdtcv_reg5 p T
  else if Z.eqb o_id ODVDT then
    pT2dvdtcp_reg5 p T
  else if Z.eqb o_id ODVDP then
    pT2dvdpct_reg5 p T
  else if Z.eqb o_id OE then
    pT2e_reg5 p T
  else if Z.eqb o_id OBETAP then
    pT2batap_reg5 p T
  else if Z.eqb o_id OFI then
    pT2fi_reg5 p T
  else if Z.eqb o_id OFU then
    pT2fu_reg5 p T
  else if Z.eqb o_id OALFAP then
    pT2alfap_reg5 p T
  else 
    ofZ INVALID_OUTID.

End Model.
