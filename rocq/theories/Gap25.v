(* The two fundamental equations of regions 2 and 5 on their common boundary, 800 C. *)
From Coq Require Import ZArith Reals List Bool Lra Lia.
From Coquelicot Require Import Coquelicot.
From Interval Require Import Tactic.
From Verif Require Import Num RealInst Constant Reg2 Reg5 Api Spec SpecReal RSums Gibbs GibbsModel GibbsModel5 SpecThermo ThermoApi ThermoPts SpecGas SpecSteam SpecStable SpecMap Stab1 Stab2 Stab5 Back2 Map12.
Import ListNotations.
Open Scope R_scope.
Lemma vap800 p : 0 < p <= 50 -> vapour p 800. Proof. unfold vapour. intros. repeat split; lra. Qed.
Lemma gas800 p : 0 < p <= 50 -> hot_gas p 800. Proof. unfold hot_gas. intros. lra. Qed.
Definition hgap (p : R) : R := 0.461526 * (540 * (Py (table0 (@region2_gfe_J0) (@region2_gfe_n0 RArith)) 1 (540 / 1073.15) + Py (@region2_gfe_IJn RArith) p (540 / 1073.15 - 0.5))
   - 1000 * (Py t50 1 (1000 / 1073.15) + Py t5 p (1000 / 1073.15))).
Definition sgap (p : R) : R := hgap p / 1073.15 - 0.461526 * 
  (P (table0 (@region2_gfe_J0) (@region2_gfe_n0 RArith)) 1 (540 / 1073.15) + P (@region2_gfe_IJn RArith) p (540 / 1073.15 - 0.5) - P t50 1 (1000 / 1073.15) - P t5 p (1000 / 1073.15)).
Lemma hgap_le p : 0 <= p <= 50 -> -0.1 <= hgap p <= 0.1.
Proof. intros H. unfold hgap. tab. Time split; interval with (i_bisect p, i_autodiff p). Qed.
Lemma sgap_le p : 0 <= p <= 50 -> -0.00015 <= sgap p <= 0.00015.
Proof. intros H. unfold sgap, hgap. tab. Time split; interval with (i_bisect p, i_autodiff p). Qed.
Lemma h25_gap p : 0 < p <= 50 -> Rabs (ptR 2 OH p 800 - ptR 5 OH p 800) <= 0.1.
Proof.
  intros H. replace (ptR 2 OH p 800 - ptR 5 OH p 800) with (hgap p); [pose proof (hgap_le p ltac:(lra)); apply Rabs_le; lra|].
  rewrite (a_h _ _ _ (facts2 p 800 (wide2_dom _ _ _ (vap_wide _ _ (vap800 p H)) eq_refl))), (a_h _ _ _ (pt_facts _ _ _ (dom5_gas p 800 (gas800 p H)))).
  unfold f_h. change (Gib 2) with Gib2. change (Gib 5) with Gib5. cbn [G_t G_ps G_Ts Gib2 Gib5]. unfold hgap, Rw, Kc.
  replace (800 + 27315 / 100) with 1073.15 by lra. replace (p / (10 / 10)) with p by field. replace (5400 / 10) with 540 by lra. replace (10000 / 10) with 1000 by lra. 
  replace (5 / 10) with 0.5 by lra. rewrite ?Rdiv_1. 
  generalize (Py (@region2_gfe_IJn RArith) p (540 / 1073.15 - 0.5)) (Py t5 p (1000 / 1073.15)) (Py (table0 (@region2_gfe_J0) (@region2_gfe_n0 RArith)) 1 (540 / 1073.15)) (Py t50 1 (1000 / 1073.15)). intros. 
  unfold Q2R. cbn [QArith_base.Qnum QArith_base.Qden]. field.
Qed.
Lemma s25_gap p : 0 < p <= 50 -> Rabs (ptR 2 OS p 800 - ptR 5 OS p 800) <= 0.00015.
Proof.
  intros H. replace (ptR 2 OS p 800 - ptR 5 OS p 800) with (sgap p); [pose proof (sgap_le p ltac:(lra)); apply Rabs_le; lra|].
  rewrite (a_s _ _ _ (facts2 p 800 (wide2_dom _ _ _ (vap_wide _ _ (vap800 p H)) eq_refl))), (a_s _ _ _ (pt_facts _ _ _ (dom5_gas p 800 (gas800 p H)))).
  unfold f_s. change (Gib 2) with Gib2. change (Gib 5) with Gib5. cbn [G_0 G_t G_ps G_Ts Gib2 Gib5]. unfold sgap, hgap, Rw, Kc.
  replace (800 + 27315 / 100) with 1073.15 by lra. replace (p / (10 / 10)) with p by field. replace (5400 / 10) with 540 by lra. replace (10000 / 10) with 1000 by lra. 
  replace (5 / 10) with 0.5 by lra. rewrite ?Rdiv_1. 
  generalize (P (@region2_gfe_IJn RArith) p (540 / 1073.15 - 0.5)) (P t5 p (1000 / 1073.15)) (P (table0 (@region2_gfe_J0) (@region2_gfe_n0 RArith)) 1 (540 / 1073.15)) (P t50 1 (1000 / 1073.15)).
  generalize (Py (@region2_gfe_IJn RArith) p (540 / 1073.15 - 0.5)) (Py t5 p (1000 / 1073.15)) (Py (table0 (@region2_gfe_J0) (@region2_gfe_n0 RArith)) 1 (540 / 1073.15)) (Py t50 1 (1000 / 1073.15)). intros. 
  unfold Q2R. cbn [QArith_base.Qnum QArith_base.Qden]. field.
Qed.
(* a state of region 5 is found from 800.1 C on *)
Lemma ph_map5 p t : hot_gas p t -> if97_psat 273.15 <= p -> 800.1 <= t -> phR OR p (ptR 5 OH p t) = 5.
Proof.
  intros W S L. pose proof (proj2 W) as Hp. pose proof (proj1 W). pose proof (h25_gap p Hp) as G. apply Rcomplements.Rabs_le_between in G.
  apply (proj1 (proj2 (proj2 (ph_rest p ltac:(lra) (ptR 5 OH p t))))). split; [lra|].
  pose proof (h_incr5 p 800 t (gas800 p Hp) W ltac:(lra)). split; [lra|].
  destruct (Req_dec t 2000) as [->|N]; [lra|]. pose proof (h_incr5 p t 2000 W ltac:(unfold hot_gas; lra) ltac:(lra)). lra.
Qed.
Lemma ps_map5 p t : hot_gas p t -> if97_psat 273.15 <= p -> 800.2 <= t -> psR OR p (ptR 5 OS p t) = 5.
Proof.
  intros W S L. pose proof (proj2 W) as Hp. pose proof (proj1 W). pose proof (s25_gap p Hp) as G. apply Rcomplements.Rabs_le_between in G.
  apply (proj1 (proj2 (proj2 (ps_rest p ltac:(lra) (ptR 5 OS p t))))). split; [lra|].
  pose proof (s_incr5 p 800 t (gas800 p Hp) W ltac:(lra)). split; [lra|].
  destruct (Req_dec t 2000) as [->|N]; [lra|]. pose proof (s_incr5 p t 2000 W ltac:(unfold hot_gas; lra) ltac:(lra)). lra.
Qed.
(* and not at 800.02 C and 10 MPa *)
Lemma h_edge5 : ptR 5 OH 10 800.02 < ptR 2 OH 10 800.
Proof.
  rewrite (a_h _ _ _ (facts2 10 800 (wide2_dom _ _ _ (vap_wide _ _ (vap800 10 ltac:(lra))) eq_refl))), (a_h _ _ _ (pt_facts _ _ _ (dom5_gas 10 800.02 ltac:(unfold hot_gas; lra)))).
  unfold f_h. tab. interval with (i_prec 80).
Qed.
Lemma ph_edge5 : hot_gas 10 800.02 /\ if97_psat 273.15 <= 10 /\ phR OR 10 (ptR 5 OH 10 800.02) = 2.
Proof.
  pose proof SatInv.psat_273. split; [unfold hot_gas; lra|]. split; [lra|]. 
  rewrite phR_or, (ph_isobar 10 ltac:(lra)). apply (proj1 (proj2 (ph_all 10 ltac:(lra) _))). split; [|left; exact h_edge5].
  pose proof (h_incr5 10 800 800.02 ltac:(unfold hot_gas; lra) ltac:(unfold hot_gas; lra) ltac:(lra)) as A.
  pose proof (h25_gap 10 ltac:(lra)) as G. apply Rcomplements.Rabs_le_between in G.
  assert (W : wide2 10 (coldest_vapour 10)) by (apply cold_wide; lra).
  assert (E : coldest_vapour 10 <= 623.15).
  { unfold coldest_vapour, p_corner. destruct (Rle_dec 10 16.5291642526045) as [L|L]; [|lra]. pose proof psat_623. destruct (tsat_below 10 623.15 ltac:(lra) ltac:(lra) ltac:(lra)). lra. }
  replace (coldest_vapour 10) with (coldest_vapour 10 - Kc + Kc) in W by ring.
  pose proof (h_incr2 10 (coldest_vapour 10 - Kc) 799 W ltac:(unfold Kc; lra) ltac:(unfold Kc; lra)).
  assert (ptR 2 OH 10 799 < ptR 5 OH 10 800.02); [|lra].
  rewrite (a_h _ _ _ (facts2 10 799 (wide2_dom _ _ _ (vap_wide 10 799 ltac:(unfold vapour; repeat split; lra)) eq_refl))), (a_h _ _ _ (pt_facts _ _ _ (dom5_gas 10 800.02 ltac:(unfold hot_gas; lra)))).
  unfold f_h. tab. interval with (i_prec 80).
Qed.
Lemma isobar_ex : (if97_psat 273.15 <= 1 <= 100 /\ hottest_liquid 1 = SpecSub3.if97_tsat 1 /\ coldest_vapour 1 = SpecSub3.if97_tsat 1) /\
  (if97_psat 273.15 <= 20 <= 100 /\ hottest_liquid 20 = 623.15 /\ coldest_vapour 20 = if97_b23T 20) /\ if97_psat 273.15 <= 100 <= 100.
Proof.
  pose proof SatInv.psat_273. unfold hottest_liquid, coldest_vapour, p_corner.
  destruct (Rle_dec 1 16.5291642526045); [|lra]. destruct (Rle_dec 20 16.5291642526045); [lra|]. repeat split; try reflexivity; lra.
Qed.
Lemma ph_edge5_ex : exists p t, hot_gas p t /\ 800 < t /\ if97_psat 273.15 <= p /\ phR OR p (ptR 5 OH p t) = 2.
Proof. exists 10, 800.02. destruct ph_edge5 as (A & B & C). split; [exact A|]. split; [lra|]. split; assumption. Qed.
