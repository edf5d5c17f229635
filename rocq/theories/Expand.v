(* Thermal expansion and its consequences: the volume increases with temperature, the entropy
   falls with pressure (region 1 from 5 C on, regions 2 and 5), the enthalpy falls with
   pressure (regions 2 and 5). *)
From Coq Require Import ZArith Reals List Bool Lra Lia.
From Coquelicot Require Import Coquelicot.
From Interval Require Import Tactic.
From Verif Require Import Num RealInst Constant Reg1 Reg2 Reg5 Api Spec SpecReal RSums Gibbs GibbsModel GibbsModel5 SpecThermo ThermoApi ThermoPts SpecStable SpecSteam SpecGas
  FloatUp FloatErr Taylor TaylorSum Enc1 Enc2 Bound1 Bound2 Tree1 Tree2 TreeE Stab1 Stab2 Stab5.
Import ListNotations.
Open Scope R_scope.

Lemma fd_pos g y k ps : 0 < g - y * k -> 0 < ps -> 0 < Rw * (g - y * k) / ps / 1000.
Proof. intros A B. pose proof Rw_pos. apply Rdiv_lt_0_compat; [|lra]. apply Rdiv_lt_0_compat; [|exact B]. apply Rmult_lt_0_compat; assumption. Qed.
Lemma fh_neg Ts k ps : 0 < Ts -> k < 0 -> 0 < ps -> Rw * Ts * k / ps < 0.
Proof.
  intros A B C. pose proof Rw_pos. assert (0 < Rw * Ts * - k / ps); [|unfold Rdiv in *; lra].
  apply Rdiv_lt_0_compat; [|exact C]. apply Rmult_lt_0_compat; [|lra]. apply Rmult_lt_0_compat; assumption.
Qed.

(* region 1 *)
Lemma dvdt_pos1 p t : wide1 p (t + Kc) -> 5 <= t -> 0 < ptR 1 ODVDT p t.
Proof.
  intros W H. rewrite (a_dvdt _ _ _ (facts1 p t (wide_dom _ _ _ W eq_refl))). unfold f_dvdt.
  change (G_ps (Gib 1)) with (1653/100). change (G_Ts (Gib 1)) with (13860/10). change (Gib 1) with Gib1. apply fd_pos; [|lra].
  destruct (wide_in _ _ W) as [[A1 A2] B].
  assert (A3 : val by0 <= vy (t + Kc) <= val ey1).
  { split; [exact (proj1 A2)|]. unfold vy, ey1. flv. assert (13860 / 10 / (t + Kc) <= 13860 / 10 / 278.15); [|lra].
    apply Rmult_le_compat_l; [lra|]. apply Rinv_le_contravar; unfold Kc; lra. }
  pose proof (neg_e1 _ _ A1 A3 B) as N. set (y := 13860 / 10 / (t + Kc)) in *. replace (vy (t + Kc) + 1222 / 1000) with y in N by (unfold vy, y; ring).
  change (G_p Gib1 (p / (1653 / 100)) y) with (- Px Tb (vx p) (vy (t + Kc))). change (G_pt Gib1 (p / (1653 / 100)) y) with (- Pxy Tb (vx p) (vy (t + Kc))). lra.
Qed.
(* region 2 *)
Lemma gpt2 p t : wide2 p (t + Kc) -> G_pt Gib2 p (5400 / 10 / (t + Kc)) < 0.
Proof. intros W. destruct (wide2_in _ _ W) as [A B]. rewrite (G2_pt p t). exact (neg_e2 _ _ A B). Qed.
Lemma dvdt_pos2 p t : wide2 p (t + Kc) -> 0 < ptR 2 ODVDT p t.
Proof.
  intros W. rewrite (a_dvdt _ _ _ (facts2 p t (wide2_dom _ _ _ W eq_refl))). unfold f_dvdt.
  change (G_ps (Gib 2)) with 1. change (G_Ts (Gib 2)) with (5400/10). change (Gib 2) with Gib2. rewrite (Stab2.p1 p). apply fd_pos; [|lra].
  pose proof (sgn2_p p t W). pose proof (gpt2 p t W). pose proof (tau_pos2 p t W) as Y. nra.
Qed.
Lemma dhdp_neg2 p t : wide2 p (t + Kc) -> ptR 2 OIJTC p t < 0.
Proof.
  intros W. rewrite (a_iJ _ _ _ (facts2 p t (wide2_dom _ _ _ W eq_refl))). unfold f_dhdp.
  change (G_ps (Gib 2)) with 1. change (G_Ts (Gib 2)) with (5400/10). change (Gib 2) with Gib2. rewrite (Stab2.p1 p).
  pose proof (fh_neg (5400/10) _ 1 ltac:(lra) (gpt2 p t W) ltac:(lra)). lra.
Qed.
(* region 5 *)
Lemma b_xy x y : 0 <= x <= 50 -> 0.4399 <= y <= 0.9319 -> Pxy t5 x y < 0.
Proof. intros Hx Hy. tab. interval with (i_bisect x, i_bisect y). Qed.
Lemma gpt5 p t : hot_gas p t -> G_pt Gib5 p (10000 / 10 / (t + Kc)) < 0.
Proof. intros W. rewrite (G5_pt p t). apply b_xy; [unfold hot_gas in W; lra|exact (y5_range p t W)]. Qed.
Lemma gp5 p t : hot_gas p t -> 0 < G_p Gib5 p (10000 / 10 / (t + Kc)).
Proof. intros W. rewrite (G5_p p t W). pose proof (b_z p _ ltac:(unfold hot_gas in W; lra) (y5_range p t W)). apply Rdiv_lt_0_compat; [lra|unfold hot_gas in W; lra]. Qed.
Lemma p10 p : p / (10 / 10) = p. Proof. field. Qed.
Lemma dvdt_pos5 p t : hot_gas p t -> 0 < ptR 5 ODVDT p t.
Proof.
  intros W. rewrite (a_dvdt _ _ _ (facts5 p t (dom5_gas p t W))). unfold f_dvdt.
  change (Gib 5) with Gib5; change (G_ps Gib5) with (10 / 10); change (G_Ts Gib5) with (10000 / 10). rewrite (p10 p). apply fd_pos; [|lra].
  pose proof (gp5 p t W). pose proof (gpt5 p t W). pose proof (y5_range p t W) as Y. cbv beta zeta in Y. nra.
Qed.
Lemma dhdp_neg5 p t : hot_gas p t -> ptR 5 OIJTC p t < 0.
Proof.
  intros W. rewrite (a_iJ _ _ _ (facts5 p t (dom5_gas p t W))). unfold f_dhdp.
  change (Gib 5) with Gib5; change (G_ps Gib5) with (10 / 10); change (G_Ts Gib5) with (10000 / 10). rewrite (p10 p).
  pose proof (fh_neg (10000/10) _ (10/10) ltac:(lra) (gpt5 p t W) ltac:(lra)). lra.
Qed.

(* along isobars and isotherms *)
Lemma decr_of (f df : R -> R) a b : a < b -> (forall x, a <= x <= b -> is_derive f x (df x)) -> (forall x, a <= x <= b -> df x < 0) -> f b < f a.
Proof.
  intros L D N. apply Ropp_lt_cancel. apply (incr_of (fun x => - f x) (fun x => - df x)); [exact L| |]; intros x Hx.
  - exact (dopp _ _ _ (D x Hx)).
  - pose proof (N x Hx). lra.
Qed.
Lemma v_incr1 p t1 t2 : 5 <= t1 -> t1 < t2 -> wide1 p (t2 + Kc) -> ptR 1 OV p t1 < ptR 1 OV p t2.
Proof.
  intros A L W. apply (incr_of (fun t => ptR 1 OV p t) (fun t => ptR 1 ODVDT p t)); [exact L| |]; intros t Ht;
    assert (Wt : wide1 p (t + Kc)) by (apply (wide_iso _ _ _ W); unfold Kc; lra).
  - apply dV_dt. exact (wide_dom _ _ _ Wt eq_refl).
  - apply dvdt_pos1; [exact Wt|lra].
Qed.
Lemma s_decr1 t p1 p2 : 5 <= t -> wide1 p1 (t + Kc) -> p1 < p2 -> p2 <= 100 -> ptR 1 OS p2 t < ptR 1 OS p1 t.
Proof.
  intros A W L M. apply (decr_of (fun p => ptR 1 OS p t) (fun p => - 1000 * ptR 1 ODVDT p t)); [exact L| |]; intros p Hp;
    assert (Wt : wide1 p (t + Kc)) by (destruct W as (B & C & D); split; [exact B|lra]).
  - apply dS_dp. exact (wide_dom _ _ _ Wt eq_refl).
  - pose proof (dvdt_pos1 p t Wt A). lra.
Qed.
Lemma v_incr2 p t1 t2 : wide2 p (t1 + Kc) -> t1 < t2 -> t2 + Kc <= 1073.15 -> ptR 2 OV p t1 < ptR 2 OV p t2.
Proof.
  intros W L M. apply (incr_of (fun t => ptR 2 OV p t) (fun t => ptR 2 ODVDT p t)); [exact L| |]; intros t Ht;
    assert (Wt : wide2 p (t + Kc)) by (apply (wide2_iso _ _ _ W); unfold Kc in *; lra).
  - apply dV_dt. exact (wide2_dom _ _ _ Wt eq_refl).
  - exact (dvdt_pos2 p t Wt).
Qed.
Lemma s_decr2 t p1 p2 : 0 < p1 -> p1 < p2 -> wide2 p2 (t + Kc) -> ptR 2 OS p2 t < ptR 2 OS p1 t.
Proof.
  intros A L W. apply (decr_of (fun p => ptR 2 OS p t) (fun p => - 1000 * ptR 2 ODVDT p t)); [exact L| |]; intros p Hp;
    assert (Wt : wide2 p (t + Kc)) by (apply (wide2_less _ _ _ W); lra).
  - apply dS_dp. exact (wide2_dom _ _ _ Wt eq_refl).
  - pose proof (dvdt_pos2 p t Wt). lra.
Qed.
Lemma h_decr2 t p1 p2 : 0 < p1 -> p1 < p2 -> wide2 p2 (t + Kc) -> ptR 2 OH p2 t < ptR 2 OH p1 t.
Proof.
  intros A L W. apply (decr_of (fun p => ptR 2 OH p t) (fun p => 1000 * ptR 2 OIJTC p t)); [exact L| |]; intros p Hp;
    assert (Wt : wide2 p (t + Kc)) by (apply (wide2_less _ _ _ W); lra).
  - apply dH_dp. exact (wide2_dom _ _ _ Wt eq_refl).
  - pose proof (dhdp_neg2 p t Wt). lra.
Qed.
Lemma v_incr5 p t1 t2 : hot_gas p t1 -> hot_gas p t2 -> t1 < t2 -> ptR 5 OV p t1 < ptR 5 OV p t2.
Proof.
  intros A B L. apply (incr_of (fun t => ptR 5 OV p t) (fun t => ptR 5 ODVDT p t)); [exact L| |]; intros t Ht; pose proof (gas_iso p t1 t2 t A B Ht) as W.
  - apply dV_dt. exact (dom5_gas p t W).
  - exact (dvdt_pos5 p t W).
Qed.
Lemma s_decr5 t p1 p2 : 0 < p1 -> p1 < p2 -> hot_gas p2 t -> ptR 5 OS p2 t < ptR 5 OS p1 t.
Proof.
  intros A L W. apply (decr_of (fun p => ptR 5 OS p t) (fun p => - 1000 * ptR 5 ODVDT p t)); [exact L| |]; intros p Hp;
    assert (Wt : hot_gas p t) by (unfold hot_gas in *; lra).
  - apply dS_dp. exact (dom5_gas p t Wt).
  - pose proof (dvdt_pos5 p t Wt). lra.
Qed.
Lemma h_decr5 t p1 p2 : 0 < p1 -> p1 < p2 -> hot_gas p2 t -> ptR 5 OH p2 t < ptR 5 OH p1 t.
Proof.
  intros A L W. apply (decr_of (fun p => ptR 5 OH p t) (fun p => 1000 * ptR 5 OIJTC p t)); [exact L| |]; intros p Hp;
    assert (Wt : hot_gas p t) by (unfold hot_gas in *; lra).
  - apply dH_dp. exact (dom5_gas p t Wt).
  - pose proof (dhdp_neg5 p t Wt). lra.
Qed.
(* the Joule-Thomson coefficient *)
Lemma jt_of r p t : formula_domain r p t -> 0 < ptR r OV p t -> ptR r ODVDP p t < 0 -> 0 < ptR r OCP p t -> ptR r OIJTC p t < 0 -> 0 < ptR r OJTC p t.
Proof.
  intros D V K C J. pose proof (id_j r p t D ltac:(lra) ltac:(lra)) as I.
  destruct (Rlt_le_dec 0 (ptR r OJTC p t)) as [L|L]; [exact L|]. exfalso. nra.
Qed.
Lemma jt_pos2 p t : wide2 p (t + Kc) -> 0 < ptR 2 OJTC p t.
Proof. intros W. apply jt_of; [exact (wide2_dom _ _ _ W eq_refl)|exact (v_pos2 p t W)|exact (dvdp_neg2 p t W)|exact (cp_pos2 p t W)|exact (dhdp_neg2 p t W)]. Qed.
Lemma jt_pos5 p t : hot_gas p t -> 0 < ptR 5 OJTC p t.
Proof. intros W. destruct (gas_stable p t W) as (A & B & C & _). apply jt_of; [exact (dom5_gas p t W)|exact A|exact B|exact C|exact (dhdp_neg5 p t W)]. Qed.
