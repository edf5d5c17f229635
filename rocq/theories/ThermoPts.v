(* Concrete states: the hypotheses of the identities hold there, and the false
   statements fail there. *)
From Coq Require Import ZArith List Bool Reals Lra Lia.
From Coquelicot Require Import Coquelicot.
From Interval Require Import Tactic.
From Verif Require Import Num RealInst Constant Reg1 Reg2 Reg5 Reg3Td Api Spec SpecThermo RealSat RSums
  Gibbs GibbsModel GibbsModel5 GibbsModel3 ThermoApi ThermoApi3.
Import ListNotations.
Open Scope R_scope.

Ltac tab := cbv beta iota zeta delta [P Px Py Pxx Pxy Pyy tsum fold_right fst snd map combine table0
   Gib Z.eqb Pos.eqb Gib1 Gib2 Gib5 G_0 G_p G_t G_pp G_pt G_tt G_ps G_Ts f_v f_dvdp f_cp f_cv f_dhdp f_kt f_ec Rw Kc
   Helm3 H_0 H_d H_t H_dd H_dt H_tt H_dc H_Tc e_dvdp e_dpdd e_cv e_cp e_f e_p e_kt region3_hfe_IJn region3_hfe_n1
   region1_gfe_IJn region2_gfe_IJn region2_gfe_J0 region2_gfe_n0 region5_gfe_Jo region5_gfe_no region5_gfe_IJn
   lit RArith R_of_dec dm de Z.pow_pos Pos.iter Z.mul Pos.mul Pos.add Pos.succ
   Z.sub Z.add Z.opp Z.pos_sub Pos.pred_double Z.succ_double Z.pred_double Z.double
   Pos.sub Pos.sub_mask Pos.double_mask Pos.succ_double_mask Pos.double_pred_mask Pos.pred_mask].

Lemma stable_pt r p t : formula_domain r p t ->
  0 < f_v (Gib r) p (t + Kc) -> f_dvdp (Gib r) p (t + Kc) < 0 -> 0 < f_cp (Gib r) p (t + Kc) -> 0 < f_cv (Gib r) p (t + Kc) ->
  0 < ptR r OV p t /\ ptR r ODVDP p t < 0 /\ 0 < ptR r OCP p t /\ 0 < cv_mayer r p t /\
  0 <= ptR r OV p t * (ptR r OCP p t / cv_mayer r p t) / ptR r OKT p t.
Proof.
  intros D Hv Hp Hc Hcv. pose proof (pt_facts _ _ _ D) as F.
  assert (V : ptR r OV p t <> 0) by (rewrite (a_v _ _ _ F); lra).
  assert (E : ptR r ODVDP p t <> 0) by (rewrite (a_dvdp _ _ _ F); lra).
  assert (C : 0 < cv_mayer r p t) by (unfold cv_mayer; rewrite cvm_eq by assumption; exact Hcv).
  rewrite <- (a_v _ _ _ F) in Hv. rewrite <- (a_dvdp _ _ _ F) in Hp. rewrite <- (a_cp _ _ _ F) in Hc.
  repeat split; try assumption. rewrite id_kt by assumption.
  assert (0 < - ptR r ODVDP p t / ptR r OV p t) by (apply Rdiv_lt_0_compat; lra).
  apply Rlt_le, Rdiv_lt_0_compat; [|assumption]. apply Rmult_lt_0_compat; [assumption|]. now apply Rdiv_lt_0_compat.
Qed.
Lemma dom1 : formula_domain 1 3 26.85. Proof. unfold formula_domain. split; [|split]; [lra|lra|left]. split; [reflexivity|]. lra. Qed.
Lemma dom2 : formula_domain 2 1 300. Proof. unfold formula_domain. split; [|split]; [lra|lra|right; left]. split; [reflexivity|]. lra. Qed.
Lemma dom5 : formula_domain 5 10 1226.85. Proof. unfold formula_domain. split; [|split]; [lra|lra|right; right]. reflexivity. Qed.
Lemma pt1 : 0 < ptR 1 OV 3 26.85 /\ ptR 1 ODVDP 3 26.85 < 0 /\ 0 < ptR 1 OCP 3 26.85 /\ 0 < cv_mayer 1 3 26.85 /\
  0 <= ptR 1 OV 3 26.85 * (ptR 1 OCP 3 26.85 / cv_mayer 1 3 26.85) / ptR 1 OKT 3 26.85.
Proof. apply stable_pt; [apply dom1| | | |]; tab; interval. Qed.
Lemma pt2 : 0 < ptR 2 OV 1 300 /\ ptR 2 ODVDP 1 300 < 0 /\ 0 < ptR 2 OCP 1 300 /\ 0 < cv_mayer 2 1 300 /\
  0 <= ptR 2 OV 1 300 * (ptR 2 OCP 1 300 / cv_mayer 2 1 300) / ptR 2 OKT 1 300.
Proof. apply stable_pt; [apply dom2| | | |]; tab; interval. Qed.
Lemma pt5 : 0 < ptR 5 OV 10 1226.85 /\ ptR 5 ODVDP 10 1226.85 < 0 /\ 0 < ptR 5 OCP 10 1226.85 /\ 0 < cv_mayer 5 10 1226.85 /\
  0 <= ptR 5 OV 10 1226.85 * (ptR 5 OCP 10 1226.85 / cv_mayer 5 10 1226.85) / ptR 5 OKT 10 1226.85.
Proof. apply stable_pt; [apply dom5| | | |]; tab; interval. Qed.

(* region 3 at T = 650 K, d = 500 kg/m3 *)
Definition t3 : R := 376.85. Definition v3 : R := 0.002.
Lemma dom3 : formula_domain3 t3 v3. Proof. unfold formula_domain3, t3, v3. lra. Qed.
Lemma pt3 : tvR ODVDP t3 v3 < 0 /\ 0 < tvR OP t3 v3 /\ 0 < tvR OCV t3 v3 /\ 0 < tvR OCP t3 v3 /\
  0 <= v3 * (tvR OCP t3 v3 / tvR OCV t3 v3) / tvR OKT t3 v3.
Proof.
  assert (N : 2 * H_d Helm3 (10 / 10 / v3 / H_dc Helm3) (H_Tc Helm3 / (t3 + Kc))
     + 10 / 10 / v3 / H_dc Helm3 * H_dd Helm3 (10 / 10 / v3 / H_dc Helm3) (H_Tc Helm3 / (t3 + Kc)) <> 0).
  { apply Rgt_not_eq. unfold t3, v3. tab. interval. }
  pose proof (T3nz _ _ dom3) as HT. pose proof (d3nz _ _ dom3) as Hd.
  assert (E : tvR ODVDP t3 v3 = e_dvdp Helm3 (t3 + Kc) (10 / 10 / v3)) by (apply dvdp3; auto).
  assert (A : tvR ODVDP t3 v3 < 0) by (rewrite E; unfold t3, v3; tab; interval).
  assert (A' : tvR ODVDP t3 v3 <> 0) by lra.
  assert (B : 0 < tvR OCV t3 v3) by (rewrite (b_cv _ _ dom3); unfold t3, v3; tab; interval).
  assert (C : 0 < tvR OCP t3 v3) by (rewrite (b_cp _ _ dom3 A'); unfold t3, v3; tab; interval).
  split; [exact A|]. split; [rewrite (b_p _ _ dom3); unfold t3, v3; tab; interval|].
  split; [exact B|]. split; [exact C|].
  rewrite (i3_kt _ _ dom3 A').
  assert (0 < v3) by (unfold v3; lra).
  assert (0 < - tvR ODVDP t3 v3 / v3) by (apply Rdiv_lt_0_compat; lra).
  apply Rlt_le, Rdiv_lt_0_compat; [|assumption]. apply Rmult_lt_0_compat; [assumption|]. now apply Rdiv_lt_0_compat.
Qed.

(* C26 in region 5: what is returned instead of c_v *)
Lemma cv_reg5 p t : formula_domain 5 p t -> ptR 5 OV p t <> 0 -> ptR 5 ODVDP p t <> 0 ->
  let c := 1000 * p ^ 2 * ptR 5 OV p t * ptR 5 OKT p t / (0.461526 * (t + 273.15)) in
  ptR 5 OCV p t = (ptR 5 OCP p t - c * (ptR 5 OCP p t - cv_mayer 5 p t)) / c.
Proof.
  intros D Hv Hp c. pose proof (pt_facts _ _ _ D) as F. destruct (dom_T _ _ _ D) as [P0 T0].
  pose proof (nz_v _ _ _ D Hv) as N. pose proof (nz_dvdp _ _ _ D Hp) as N2.
  unfold cv_mayer. rewrite (cvm_eq 5 p t D Hv Hp). unfold c. rewrite (a_v _ _ _ F), (a_cp _ _ _ F), (a_kt _ _ _ F) by exact N.
  change (t + 273.15) with (t + Kc). change 0.461526 with (461526/1000000).
  transitivity (@pT2cv_reg5 RArith p (t + Kc)%R); [reflexivity|]. rewrite (cv5 p (t + Kc)) by assumption.
  change (Gib 5) with Gib5 in *. rewrite ps5, Ts5 in *. unfold f_v, f_cp, f_kt, f_cv, Rw. rewrite ps5, Ts5.
  generalize dependent (G_p Gib5 (p / (10 / 10)) (10000 / 10 / (t + Kc))).
  generalize dependent (G_pp Gib5 (p / (10 / 10)) (10000 / 10 / (t + Kc))).
  generalize (G_pt Gib5 (p / (10 / 10)) (10000 / 10 / (t + Kc))) (G_tt Gib5 (p / (10 / 10)) (10000 / 10 / (t + Kc))).
  intros. field. repeat split; auto.
Qed.
Lemma mayer5_refuted : exists p t, formula_domain 5 p t /\ ptR 5 OV p t <> 0 /\ ptR 5 ODVDP p t <> 0 /\
  ptR 5 OCP p t - ptR 5 OCV p t <> 1000 * (t + 273.15) * ptR 5 OV p t * ptR 5 OEC p t ^ 2 / ptR 5 OKT p t.
Proof.
  exists 10, 1226.85. destruct pt5 as (A & B & C & C' & _). pose proof dom5 as D.
  assert (V : ptR 5 OV 10 1226.85 <> 0) by lra. assert (W : ptR 5 ODVDP 10 1226.85 <> 0) by lra.
  repeat (split; [assumption|]). intros E.
  assert (E' : ptR 5 OCV 10 1226.85 = cv_mayer 5 10 1226.85) by (unfold cv_mayer; lra).
  unfold cv_mayer in E'. rewrite (cvm_eq 5 _ _ D V W) in E'.
  assert (X : 0 < ptR 5 OCV 10 1226.85 - f_cv (Gib 5) 10 (1226.85 + Kc)); [|lra].
  change (ptR 5 OCV 10 1226.85) with (@pT2cv_reg5 RArith 10%R (1226.85 + Kc)%R).
  rewrite cv5; [|lra|unfold Kc; lra|exact (nz_dvdp _ _ _ D W)]. tab. interval.
Qed.
Lemma dhdp_nz : 0 < f_dhdp (Gib 1) 3 (26.85 + Kc).
Proof. tab. interval. Qed.
Lemma ijtc_refuted : exists p t, formula_domain 1 p t /\ ~ is_derive (fun p => ptR 1 OH p t) p (ptR 1 OIJTC p t).
Proof.
  exists 3, 26.85. split; [exact dom1|]. intros H. pose proof (dH_dp 1 3 26.85 dom1) as H'.
  pose proof (is_derive_unique _ _ _ H) as U. rewrite (is_derive_unique _ _ _ H') in U.
  rewrite (a_iJ _ _ _ (pt_facts _ _ _ dom1)) in U. pose proof dhdp_nz. lra.
Qed.
Lemma exergy3_refuted : exists t v, formula_domain3 t v /\ tvR OE t v <> tvR OH t v - 273.16 * tvR OS t v.
Proof.
  exists t3, v3. split; [exact dom3|]. rewrite (i3_e _ _ dom3). intros E.
  assert (X : (t3 + 273.15 - 273.16) * (1 - 647.096 / (t3 + 273.15)) * (tvR OF t3 v3 / (t3 + 273.15)) < 0); [|lra].
  rewrite (b_f _ _ dom3). unfold t3, v3. tab. interval.
Qed.
