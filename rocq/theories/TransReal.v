(* Transport properties over the reals: counterexamples and surface tension. *)
From Coq Require Import ZArith List Bool Reals Lra Lia.
From Coquelicot Require Import Coquelicot.
From Interval Require Import Tactic.
From Verif Require Import Num Algo RealInst RealSat RegionMap Constant Transport Reg1 Reg2 Reg5 Reg3Td Api Spec Control Consist SpecThermo RSums
  Gibbs GibbsModel GibbsModel3 ThermoApi ThermoApi3 ThermoPts TransFacts.
Import ListNotations.
Open Scope R_scope.

Ltac visc := unfold viscosity, thcond, TC_WATER, DC_WATER, poly_powi, viscosity_ijH, thcond_no, thcond_nij; cbv zeta; cbn [fold_left seq nth row_i row_j row_n fst snd Z.of_nat Pos.of_succ_nat Pos.succ]; rnum.
Lemma visc_500 : 0 < @viscosity RArith 500 650.
Proof. visc. interval. Qed.
Lemma kv_eq (w : R) : 500 * w = 250000 * (w / 500).
Proof. field. Qed.
(* region 3, T = 650 K, v = 0.002 m3/kg *)
Lemma okv3_refuted : exists t v dv d kv, @call RArith 1 TV t v (from_pair (ODV, 3%Z)) = Some dv /\
  @call RArith 1 TV t v (from_pair (OD, 3%Z)) = Some d /\ @call RArith 1 TV t v (from_pair (OKV, 3%Z)) = Some kv /\
  0 < dv /\ 0 < d /\ kv = 250000 * (dv / d).
Proof.
  exists 376.85, 0.002, (@viscosity RArith (1/0.002)%R (376.85 + 273.15)%R), (1/0.002)%R, (Rmult (1/0.002) (@viscosity RArith (1/0.002)%R (376.85 + 273.15)%R)).
  assert (E : @div RArith (lit (1.0%dec)) 0.002%R = (1/0.002)%R) by (rnum; lra).
  split; [|split; [|split]].
  - change (@call RArith 1 TV 376.85 0.002 (from_pair (ODV, 3%Z))) with (Some (@viscosity RArith (@div RArith (lit (1.0%dec)) 0.002%R) (376.85 + 273.15)%R)).
    now rewrite E.
  - change (@call RArith 1 TV 376.85 0.002 (from_pair (OD, 3%Z))) with (Some (@div RArith (lit (1.0%dec)) 0.002%R)). now rewrite E.
  - change (@call RArith 1 TV 376.85 0.002 (from_pair (OKV, 3%Z))) with (Some (@mul RArith (@div RArith (lit (1.0%dec)) 0.002%R) (@viscosity RArith (@div RArith (lit (1.0%dec)) 0.002%R) (376.85 + 273.15)%R))).
    now rewrite E.
  - replace (1/0.002) with 500 by lra. replace (376.85 + 273.15) with 650 by lra.
    pose proof visc_500 as V. revert V. generalize (@viscosity RArith 500 650). intros w V. split; [exact V|]. split; [lra|]. apply kv_eq.
Qed.
(* region 1, p = 3 MPa, T = 300 K: the Prandtl number of water is about 5.8, the answer about 2.2 *)
Lemma cp300 : exists cp, @call RArith 1 PT 3 26.85 (from_pair (OCP, 1%Z)) = Some cp /\ 4.16 < cp < 4.18.
Proof.
  exists (ptR 1 OCP 3 26.85). split; [reflexivity|]. rewrite (a_cp _ _ _ (pt_facts _ _ _ dom1)). unfold Kc. tab. split; interval.
Qed.
Lemma dv300 : exists dv, @call RArith 1 PT 3 26.85 (from_pair (ODV, 1%Z)) = Some dv /\ 0.00085 < dv < 0.00086.
Proof.
  exists (@viscosity RArith (ptR 1 OD 3 26.85) (26.85 + 273.15)%R). split; [reflexivity|].
  assert (V : 0.00100215 < ptR 1 OV 3 26.85 < 0.00100216) by (rewrite (a_v _ _ _ (pt_facts _ _ _ dom1)); unfold Kc; tab; split; interval).
  assert (D : ptR 1 OD 3 26.85 = 1 / ptR 1 OV 3 26.85).
  { unfold ptR. change (@pt RArith 3 26.85 (from_pair (OD, 1%Z))) with (@div RArith (lit (1.0%dec)) (@pt RArith 3 26.85 (from_pair (OV, 1%Z)))). rnum. unfold Rdiv. replace (10 * / 10) with 1 by lra. reflexivity. }
  rewrite D. revert V. generalize (ptR 1 OV 3 26.85). intros v V. visc. split; interval with (i_bisect v, i_autodiff v).
Qed.
Lemma tc300 : exists tc, @call RArith 1 PT 3 26.85 (from_pair (OTC, 1%Z)) = Some tc /\ 0.61 < tc < 0.62.
Proof.
  exists (@thcond RArith (ptR 1 OD 3 26.85) (26.85 + 273.15)%R). split; [reflexivity|].
  assert (V : 0.00100215 < ptR 1 OV 3 26.85 < 0.00100216) by (rewrite (a_v _ _ _ (pt_facts _ _ _ dom1)); unfold Kc; tab; split; interval).
  assert (D : ptR 1 OD 3 26.85 = 1 / ptR 1 OV 3 26.85).
  { unfold ptR. change (@pt RArith 3 26.85 (from_pair (OD, 1%Z))) with (@div RArith (lit (1.0%dec)) (@pt RArith 3 26.85 (from_pair (OV, 1%Z)))). rnum. unfold Rdiv. replace (10 * / 10) with 1 by lra. reflexivity. }
  rewrite D. revert V. generalize (ptR 1 OV 3 26.85). intros v V. visc. split; interval with (i_bisect v, i_autodiff v).
Qed.
Lemma opr_refuted : exists p t dv cp tc pr, @call RArith 1 PT p t (from_pair (ODV, 1%Z)) = Some dv /\
  @call RArith 1 PT p t (from_pair (OCP, 1%Z)) = Some cp /\ @call RArith 1 PT p t (from_pair (OTC, 1%Z)) = Some tc /\
  @call RArith 1 PT p t (from_pair (OPR, 1%Z)) = Some pr /\ 1000 * dv * cp / tc > 5.6 /\ pr < 2.4.
Proof.
  destruct cp300 as (cp & Ec & Hc), dv300 as (dv & Ev & Hv), tc300 as (tc & Et & Ht).
  exists 3, 26.85, dv, cp, tc. eexists. split; [exact Ev|]. split; [exact Ec|]. split; [exact Et|]. split.
  - apply (@opr_125 RArith 1%positive PT (3%R) (26.85%R) 1%Z (26.85%R) cp ltac:(cbn; tauto) eq_refl Ec).
  - split; [interval|].
    change (@add RArith 26.85%R (lit (273.15%dec))) with (26.85 + 273.15). replace (26.85 + 273.15) with 300 by lra.
    clear Ec Ev Et Hv Ht. visc. interval.
Qed.

(* ---- surface tension ---- *)
Definition sig (T : R) : R := 0.2358 * (Rpower (1 - T / 647.096) 1.256 * (1 - 0.625 * (1 - T / 647.096))).
Lemma st_out T : T < 248.15 \/ 647.096 < T -> @surface_tension RArith T = -9999.
Proof.
  intros H. unfold surface_tension, TC_WATER.
  replace (andb _ _) with false; [unfold INVALID_VALUE; rnum; lra|].
  symmetry. apply andb_false_iff. rnum. destruct H; [left|right]; apply Rle_b_false; lra.
Qed.
Lemma st_in T : 248.15 <= T < 647.096 -> @surface_tension RArith T = sig T.
Proof.
  intros H. unfold surface_tension, TC_WATER.
  replace (andb _ _) with true by (symmetry; apply andb_true_iff; rnum; split; apply Rle_b_true; lra).
  cbv zeta. rnum. unfold sig, R_powf. 
  assert (0 < 10/10 - T / (647096/1000)) by lra.
  destruct (Rlt_dec 0 (10/10 - T / (647096/1000))) as [_|C]; [|contradiction].
  replace (10/10 - T / (647096/1000)) with (1 - T / 647.096) by lra. replace (1256/1000) with 1.256 by lra. lra.
Qed.
Lemma st_crit : @surface_tension RArith 647.096 = 0.
Proof.
  unfold surface_tension, TC_WATER.
  replace (andb _ _) with true by (symmetry; apply andb_true_iff; rnum; split; apply Rle_b_true; lra).
  cbv zeta. rnum. replace (10/10 - 647.096 / (647096/1000)) with 0 by lra.
  unfold R_powf. destruct (Rlt_dec 0 0) as [C|_]; [lra|].
  destruct (Req_EM_T (1256/1000) (IZR (Int_part (1256/1000)))) as [C|_]; [exfalso|lra].
  assert (A : (1 < Int_part (1256/1000) < 2)%Z) by (split; apply lt_IZR; rewrite <- C; lra). lia.
Qed.
Lemma st_pos T : 248.15 <= T < 647.096 -> 0 < @surface_tension RArith T.
Proof.
  intros H. rewrite st_in by assumption. unfold sig, Rpower.
  assert (0 < 1 - T / 647.096) by lra. assert (0 < 1 - 0.625 * (1 - T / 647.096)) by interval.
  apply Rmult_lt_0_compat; [lra|]. apply Rmult_lt_0_compat; [apply exp_pos|assumption].
Qed.
Definition lsig (y : R) : R := 1.256 * ln y + ln (1 - 0.625 * y).
Lemma lsig_incr x y : 0 < x -> x < y -> y < 0.65 -> lsig x < lsig y.
Proof.
  intros H1 H2 H3.
  apply (incr_function lsig 0 0.65 (fun y => 1.256 / y - 0.625 / (1 - 0.625 * y))).
  - intros z A B. cbn in A, B. unfold lsig. auto_derive; [repeat split; lra|]. field. split; lra.
  - intros z A B. cbn in A, B. assert (0.625 / (1 - 0.625 * z) < 1.1) by interval. assert (1.5 < 1.256 / z) by (apply Rmult_lt_reg_r with z; [lra|]; unfold Rdiv; rewrite Rmult_assoc, Rinv_l by lra; lra). lra.
  - exact H1.
  - exact H2.
  - exact H3.
Qed.
Lemma st_decr T1 T2 : 248.15 <= T1 -> T1 < T2 -> T2 <= 647.096 -> @surface_tension RArith T2 < @surface_tension RArith T1.
Proof.
  intros H1 H2 [H3| ->].
  - rewrite !st_in by lra. unfold sig.
    assert (A2 : 0 < 1 - T2 / 647.096) by lra.
    assert (A : 1 - T2 / 647.096 < 1 - T1 / 647.096) by lra. assert (A1 : 1 - T1 / 647.096 < 0.65) by lra.
    revert A2 A A1. generalize (1 - T2 / 647.096) (1 - T1 / 647.096). intros x y Hx Hxy Hy.
    pose proof (lsig_incr x y Hx Hxy Hy) as L. apply exp_increasing in L. unfold lsig in L.
    rewrite !exp_plus, !exp_ln in L by lra. unfold Rpower. lra.
  - rewrite st_crit. apply st_pos. lra.
Qed.

Lemma pt_ost fuel p t r : In r [1; 2; 3; 5]%Z -> @call RArith fuel PT p t (from_pair (OST, r)) = Some (@surface_tension RArith (t + 273.15)%R).
Proof. intros Hr. cbn in Hr. repeat (destruct Hr as [<-|Hr]; [reflexivity|]). contradiction. Qed.
