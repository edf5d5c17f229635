(* Region 5: signs of the partial derivatives and monotonicity over all states of the region. *)
From Coq Require Import ZArith Reals List Bool Lra Lia.
From Coquelicot Require Import Coquelicot.
From Interval Require Import Tactic.
From Verif Require Import Num RealInst Constant Reg5 Api Spec SpecReal RSums Gibbs GibbsModel GibbsModel5 SpecThermo ThermoApi ThermoPts SpecGas Stab1.
Import ListNotations.
Open Scope R_scope.

Notation t5 := (@region5_gfe_IJn RArith).
Notation t50 := (table0 (@region5_gfe_Jo) (@region5_gfe_no RArith)).
Definition z5 x y := 1 + x * Px t5 x y.
Definition k5 x y := 1 - x * x * Pxx t5 x y.
Definition c5 x y := Pyy t50 1 y + Pyy t5 x y.
Definition d5 x y := - (y * y) * c5 x y * k5 x y - (z5 x y - y * (x * Pxy t5 x y)) * (z5 x y - y * (x * Pxy t5 x y)).
Section B.
Variables x y : R.
Hypothesis Hx : 0 <= x <= 50.
Hypothesis Hy : 0.4399 <= y <= 0.9319.
Lemma b_z : 0.5 < z5 x y. Proof. unfold z5. tab. Time interval with (i_bisect x, i_bisect y). Qed.
Lemma b_k : 0.5 < k5 x y. Proof. unfold k5. tab. rewrite ?Rmult_0_l, ?Rmult_0_r, ?Rmult_0_l, ?Rmult_0_r. Time interval with (i_bisect x, i_bisect y). Qed.
Lemma b_c : c5 x y < 0. Proof. unfold c5. tab. Time interval with (i_bisect x, i_bisect y). Qed.
Lemma b_d : 0 < d5 x y. Proof. unfold d5, c5, k5, z5. tab. rewrite ?Rmult_0_l, ?Rmult_0_r, ?Rmult_0_l, ?Rmult_0_r. Time interval with (i_bisect x, i_bisect y). Qed.
End B.
Lemma b_cp x y : 0 <= x <= 50 -> 0.4399 <= y <= 0.9319 -> 2 < - (461526 / 1000000) * (y * y) * c5 x y.
Proof. intros Hx Hy. unfold c5. tab. interval with (i_bisect x, i_bisect y). Qed.

Section St.
Variables p t : R.
Hypothesis W : hot_gas p t.
Let T := t + Kc. Let y := 10000 / 10 / T.
Lemma T5_range : 1073.15 <= T <= 2273.15. Proof. destruct W. unfold T, Kc. lra. Qed.
Lemma y5_range : 0.4399 <= y <= 0.9319.
Proof.
  pose proof T5_range. assert (1000 / 2273.15 <= 1000 / T <= 1000 / 1073.15).
  { split; apply Rmult_le_compat_l; try lra; apply Rinv_le_contravar; lra. }
  unfold y. replace (10000 / 10) with 1000 by lra. lra.
Qed.
Let Hx : 0 <= p <= 50. Proof. destruct W. lra. Qed.
Let Hp : 0 < p. Proof. destruct W. lra. Qed.
Lemma dom5_gas : formula_domain 5 p t.
Proof. pose proof T5_range as H. destruct W. unfold formula_domain. unfold T, Kc in H. split; [lra|split; [lra|right; right; reflexivity]]. Qed.
Let p1 : p / (10 / 10) = p. Proof. field. Qed.
Lemma G5_p : G_p Gib5 p y = z5 p y / p.
Proof. unfold z5. change (G_p Gib5 p y) with (10 / 10 / p + Px t5 p y). field. lra. Qed.
Lemma G5_pp : G_pp Gib5 p y = - k5 p y / (p * p).
Proof. unfold k5. change (G_pp Gib5 p y) with (-10 / 10 / p / p + Pxx t5 p y). field. lra. Qed.
Lemma G5_pt : G_pt Gib5 p y = Pxy t5 p y.
Proof. change (G_pt Gib5 p y) with (0 / 10 + Pxy t5 p y). field. Qed.
Lemma G5_tt : G_tt Gib5 p y = c5 p y. Proof. reflexivity. Qed.
Ltac g5 := change (Gib 5) with Gib5; change (G_ps Gib5) with (10 / 10); change (G_Ts Gib5) with (10000 / 10); rewrite p1; fold T y.
Lemma fv5 : 0 < f_v (Gib 5) p (t + Kc).
Proof.
  unfold f_v. g5. rewrite G5_p. pose proof (b_z p y Hx y5_range). pose proof T5_range. pose proof Rw_pos.
  apply Rdiv_lt_0_compat; [|lra]. apply Rdiv_lt_0_compat; [|lra]. apply Rmult_lt_0_compat; [apply Rmult_lt_0_compat; lra|]. apply Rdiv_lt_0_compat; lra.
Qed.
Lemma fdvdp5 : f_dvdp (Gib 5) p (t + Kc) < 0.
Proof.
  unfold f_dvdp. g5. rewrite G5_pp. pose proof (b_k p y Hx y5_range). pose proof T5_range. pose proof Rw_pos.
  assert (0 < Rw * T * (k5 p y / (p * p)) / (10 / 10 * (10 / 10)) / 1000); [|unfold Rdiv in *; lra].
  apply Rdiv_lt_0_compat; [|lra]. apply Rdiv_lt_0_compat; [|lra]. apply Rmult_lt_0_compat; [apply Rmult_lt_0_compat; lra|]. apply Rdiv_lt_0_compat; [lra|]. apply Rmult_lt_0_compat; lra.
Qed.
Lemma fcp5 : 2 < f_cp (Gib 5) p (t + Kc).
Proof. unfold f_cp. g5. rewrite G5_tt. exact (b_cp p y Hx y5_range). Qed.
Lemma fcv5 : 0 < f_cv (Gib 5) p (t + Kc).
Proof.
  unfold f_cv. g5. rewrite G5_tt, G5_pp, G5_p, G5_pt. pose proof (b_k p y Hx y5_range). pose proof (b_d p y Hx y5_range) as D. unfold d5 in D. pose proof Rw_pos.
  match goal with |- 0 < ?e => replace e with (Rw * (- (y * y) * c5 p y * k5 p y - (z5 p y - y * (p * Pxy t5 p y)) * (z5 p y - y * (p * Pxy t5 p y))) / k5 p y) by (field; lra) end.
  apply Rdiv_lt_0_compat; [|lra]. apply Rmult_lt_0_compat; assumption.
Qed.
Lemma gas_stable : 0 < ptR 5 OV p t /\ ptR 5 ODVDP p t < 0 /\ 0 < ptR 5 OCP p t /\ 0 < cv_mayer 5 p t /\
  0 <= ptR 5 OV p t * (ptR 5 OCP p t / cv_mayer 5 p t) / ptR 5 OKT p t.
Proof. apply stable_pt; [exact dom5_gas|exact fv5|exact fdvdp5|pose proof fcp5; lra|exact fcv5]. Qed.
Lemma kt_pos5 : 0 < ptR 5 OKT p t.
Proof. destruct gas_stable as (A & B & _). rewrite (id_kt 5 p t dom5_gas) by lra. apply Rdiv_lt_0_compat; lra. Qed.
Lemma cp_ge_cv5 : cv_mayer 5 p t <= ptR 5 OCP p t.
Proof.
  destruct gas_stable as (A & _). pose proof kt_pos5. pose proof T5_range. unfold cv_mayer.
  assert (0 <= 1000 * (t + 273.15) * ptR 5 OV p t * ptR 5 OEC p t ^ 2 / ptR 5 OKT p t); [|lra].
  change (t + 273.15) with T. apply Rmult_le_pos; [|left; apply Rinv_0_lt_compat; assumption].
  apply Rmult_le_pos; [|apply pow2_ge_0]. apply Rmult_le_pos; [|lra]. lra.
Qed.
Lemma w_sq5 : ptR 5 OW p t ^ 2 = 1000000 * ptR 5 OV p t * (ptR 5 OCP p t / cv_mayer 5 p t) / ptR 5 OKT p t.
Proof. destruct gas_stable as (A & B & C & D & E). apply (id_w 5 p t dom5_gas); first [lra|assumption|unfold cv_mayer in *; lra|unfold cv_mayer in *; assumption]. Qed.
Lemma w_pos5 : 0 < ptR 5 OW p t.
Proof.
  destruct gas_stable as (A & B & C & D & E). pose proof kt_pos5. pose proof w_sq5 as S.
  assert (0 < 1000000 * ptR 5 OV p t * (ptR 5 OCP p t / cv_mayer 5 p t) / ptR 5 OKT p t).
  { apply Rdiv_lt_0_compat; [|assumption]. apply Rmult_lt_0_compat; [lra|]. apply Rdiv_lt_0_compat; assumption. }
  assert (0 <= ptR 5 OW p t); [|destruct (Req_dec (ptR 5 OW p t) 0) as [Z|Z]; [rewrite Z in S; lra|lra]].
  change (ptR 5 OW p t) with (@pT2w_reg5 RArith p ((t + Kc)%R : R)). unfold pT2w_reg5. cbv zeta. apply sqrt_pos.
Qed.
End St.

Lemma cp5_lo p t : hot_gas p t -> 2 < ptR 5 OCP p t.
Proof. intros W. rewrite (a_cp _ _ _ (pt_facts _ _ _ (dom5_gas p t W))). exact (fcp5 p t W). Qed.
Lemma gas_iso p t1 t2 t : hot_gas p t1 -> hot_gas p t2 -> t1 <= t <= t2 -> hot_gas p t.
Proof. unfold hot_gas. lra. Qed.
Lemma h_incr5 p t1 t2 : hot_gas p t1 -> hot_gas p t2 -> t1 < t2 -> 2 * (t2 - t1) < ptR 5 OH p t2 - ptR 5 OH p t1.
Proof.
  intros A B L. assert (ptR 5 OH p t1 + -2 * t1 < ptR 5 OH p t2 + -2 * t2); [|lra].
  apply (incr_of (fun t => ptR 5 OH p t + -2 * t) (fun t => ptR 5 OCP p t + -2)); [exact L| |]; intros t Ht; pose proof (gas_iso p t1 t2 t A B Ht) as W.
  - apply (dadd (fun t => ptR 5 OH p t) (fun t => -2 * t)); [apply dH_dt; exact (dom5_gas p t W)|]. auto_derive; [exact I|ring].
  - pose proof (cp5_lo p t W). lra.
Qed.
Lemma s_incr5 p t1 t2 : hot_gas p t1 -> hot_gas p t2 -> t1 < t2 -> 2 / 2273.15 * (t2 - t1) < ptR 5 OS p t2 - ptR 5 OS p t1.
Proof.
  intros A B L. set (c := 2 / 2273.15). assert (ptR 5 OS p t1 + - c * t1 < ptR 5 OS p t2 + - c * t2); [|lra].
  apply (incr_of (fun t => ptR 5 OS p t + - c * t) (fun t => ptR 5 OCP p t / (t + Kc) + - c)); [exact L| |]; intros t Ht; pose proof (gas_iso p t1 t2 t A B Ht) as W.
  - apply (dadd (fun t => ptR 5 OS p t) (fun t => - c * t)); [apply dS_dt; exact (dom5_gas p t W)|]. auto_derive; [exact I|ring].
  - pose proof (cp5_lo p t W) as Cp. pose proof (T5_range p t W) as R. assert (2 / 2273.15 <= 2 / (t + Kc)) by (apply Rmult_le_compat_l; [lra|apply Rinv_le_contravar; lra]).
    assert (2 / (t + Kc) < ptR 5 OCP p t / (t + Kc)); [|unfold c; lra]. apply Rmult_lt_compat_r; [apply Rinv_0_lt_compat; lra|exact Cp].
Qed.
Lemma v_decr5 t p1 p2 : 0 < p1 -> p1 < p2 -> hot_gas p2 t -> ptR 5 OV p2 t < ptR 5 OV p1 t.
Proof.
  intros A L W. apply Ropp_lt_cancel.
  apply (incr_of (fun p => - ptR 5 OV p t) (fun p => - ptR 5 ODVDP p t)); [exact L| |]; intros p Hp;
    assert (Wt : hot_gas p t) by (unfold hot_gas in *; lra).
  - exact (dopp _ _ _ (dV_dp 5 p t (dom5_gas p t Wt))).
  - pose proof (gas_stable p t Wt). lra.
Qed.
