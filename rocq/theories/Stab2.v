(* Region 2: signs of the partial derivatives, monotonicity, region maps of ph and ps and
   the accuracy of the backward equations, over all states of the region. *)
From Coq Require Import ZArith Reals List Bool Lra Lia.
From Coquelicot Require Import Coquelicot.
From Interval Require Import Tactic.
From Verif Require Import RegionMap SatFloat SpecSub3 Num RealInst Constant R4Sat Reg1 Reg2 Reg2Back Region Api Spec SpecReal SatInv Sub3 RealSat SatApi RSums Gibbs GibbsModel
  SpecThermo ThermoApi FloatErr FloatUp Steps Taylor TaylorSum Enc1 Enc2 Bound1 Tree1 Tree1b Bound2 Tree2 Tree2pha Tree2phb Tree2psa Tree2psb SpecStable SpecSteam Stab1.
Open Scope R_scope.

(* the states over which the covers were computed, by absolute temperature *)
Definition wide2 (p T : R) : Prop :=
  0 < p <= 100 /\ 273.15 <= T <= 1073.15 /\
  (T <= 623.15 -> p <= if97_psat T + 1 / 1000000000) /\ (623.15 < T <= 863.15 -> p <= if97_b23 T + 1 / 1000000000).
Definition wy (T : R) : R := 5400 / 10 / T - 5 / 10.
Lemma yT_wy T : T <> 0 -> yT (wy T) = T. Proof. intros. unfold yT, wy. field. split; [exact H|lra]. Qed.
Lemma wide2_in p T : wide2 p T -> inbox2 p (wy T) /\ reg2xy p (wy T).
Proof.
  intros (Hp & HT & A & B). split.
  - unfold inbox2, wy, ax0, ax1, ay0, ay1. rewrite zero_val. flv. split; [lra|].
    assert (5400 / 10 / 1073.15 <= 5400 / 10 / T <= 5400 / 10 / 273.15).
    { split; apply Rmult_le_compat_l; try lra; apply Rinv_le_contravar; lra. }
    lra.
  - unfold reg2xy. rewrite yT_wy by lra. tauto.
Qed.
Lemma vap_wide p t : vapour p t -> wide2 p (t + Kc).
Proof.
  unfold vapour, wide2. change (t + 273.15) with (t + Kc). unfold Kc. intros (A & B & C & D). split; [exact B|]. split; [lra|]. split; intros E.
  - specialize (C ltac:(lra)). lra.
  - specialize (D ltac:(lra)). lra.
Qed.
Lemma wide2_dom p T t : wide2 p T -> T = t + Kc -> formula_domain 2 p t.
Proof.
  intros (Hp & HT & _) ->. unfold Kc in *. unfold formula_domain. split; [lra|]. split; [lra|]. right. left. split; [reflexivity|]. lra.
Qed.
Lemma wide2_iso p T T' : wide2 p T -> T <= T' <= 1073.15 -> wide2 p T'.
Proof.
  intros (Hp & HT & A & B) H. split; [exact Hp|]. split; [lra|]. split; intros E.
  - specialize (A ltac:(lra)). destruct (Req_dec T T') as [<-|N]; [exact A|]. assert (if97_psat T < if97_psat T') by (apply psat_mono; lra). lra.
  - destruct (Rle_lt_dec T 623.15) as [L|L].
    + specialize (A L). assert (if97_psat T <= if97_psat 623.15) by (destruct (Req_dec T 623.15) as [->|N]; [lra|left; apply psat_mono; lra]).
      assert (if97_b23 623.15 <= if97_b23 T') by (apply b23_incr; lra). pose proof b23_623. lra.
    + specialize (B ltac:(lra)). assert (if97_b23 T <= if97_b23 T') by (apply b23_incr; lra). lra.
Qed.
Lemma wide2_less p p' T : wide2 p T -> 0 < p' <= p -> wide2 p' T.
Proof.
  intros (Hp & HT & A & B) H. split; [lra|]. split; [exact HT|]. split; intros E; [specialize (A E)|specialize (B E)]; lra.
Qed.

Notation Tb2 := (map rrow tab2).
Notation Ti2 := (map rrow tid2).
Section St.
Variables (p t : R).
Hypothesis W : wide2 p (t + Kc).
Let D := wide2_dom _ _ _ W eq_refl.
Let F := facts2 p t D.
Let T := t + Kc. Let y := 5400 / 10 / T. Let z := wy T.
Lemma T_pos2 : 0 < T. Proof. pose proof (proj1 (proj2 W)). unfold T. lra. Qed.
Lemma p_pos2 : 0 < p. Proof. exact (proj1 (proj1 W)). Qed.
Lemma tau_pos2 : 0 < y. Proof. apply Rdiv_lt_0_compat; [lra|exact T_pos2]. Qed.
Lemma zy : z + 1 / 2 = y. Proof. unfold z, wy, y. field. pose proof T_pos2. lra. Qed.
Lemma G2_p : G_p Gib2 p y = vZ p z / p.
Proof. pose proof p_pos2. change (G_p Gib2 p y) with (10 / 10 / p + Px Tb2 p z). unfold vZ. field. lra. Qed.
Lemma G2_pp : G_pp Gib2 p y = - vK p z / (p * p).
Proof. pose proof p_pos2. change (G_pp Gib2 p y) with (-10 / 10 / p / p + Pxx Tb2 p z). unfold vK. field. lra. Qed.
Lemma G2_pt : G_pt Gib2 p y = Pxy Tb2 p z.
Proof. change (G_pt Gib2 p y) with (0 / 10 + Pxy Tb2 p z). field. Qed.
Lemma G2_tt : G_tt Gib2 p y = vC p z.
Proof. unfold vC. rewrite zy. reflexivity. Qed.
Lemma G2_t : G_t Gib2 p y = vH p z.
Proof. unfold vH. rewrite zy. reflexivity. Qed.
Lemma G2_0 : G_0 Gib2 p y = ln p + P Ti2 1 y + P Tb2 p z.
Proof. reflexivity. Qed.
Lemma sgn2_p : 0 < G_p Gib2 p y.
Proof. destruct (wide2_in _ _ W) as [A B]. rewrite G2_p. apply Rdiv_lt_0_compat; [exact (pos_Z _ _ A B)|exact p_pos2]. Qed.
Lemma sgn2_pp : G_pp Gib2 p y < 0.
Proof.
  destruct (wide2_in _ _ W) as [A B]. rewrite G2_pp. pose proof (pos_K _ _ A B). pose proof p_pos2.
  assert (0 < vK p z / (p * p)); [|unfold Rdiv in *; lra]. apply Rdiv_lt_0_compat; [assumption|]. apply Rmult_lt_0_compat; assumption.
Qed.
Lemma sgn2_tt : G_tt Gib2 p y < 0.
Proof. destruct (wide2_in _ _ W) as [A B]. rewrite G2_tt. exact (neg_C _ _ A B). Qed.
Lemma sgn2_det : 0 < y * y * G_tt Gib2 p y * G_pp Gib2 p y - (G_p Gib2 p y - y * G_pt Gib2 p y) * (G_p Gib2 p y - y * G_pt Gib2 p y).
Proof.
  destruct (wide2_in _ _ W) as [A B]. pose proof (neg_D _ _ A B) as H. unfold vD in H. cbv zeta in H. change (wy (t + Kc)) with z in H. rewrite zy in H.
  rewrite G2_tt, G2_pp, G2_p, G2_pt. pose proof p_pos2.
  match goal with |- 0 < ?e => replace e with (- (y * y * vC p z * vK p z + (vZ p z - y * (p * Pxy Tb2 p z)) * (vZ p z - y * (p * Pxy Tb2 p z))) / (p * p)) by (field; lra) end.
  apply Rdiv_lt_0_compat; [lra|]. apply Rmult_lt_0_compat; assumption.
Qed.
Lemma p1 : p / 1 = p. Proof. field. Qed.
Lemma v_pos2 : 0 < ptR 2 OV p t.
Proof.
  rewrite (a_v _ _ _ F). unfold f_v. change (G_ps (Gib 2)) with 1. change (G_Ts (Gib 2)) with (5400/10). change (Gib 2) with Gib2. rewrite p1.
  pose proof sgn2_p as H. fold T y. pose proof T_pos2. pose proof Rw_pos.
  apply Rdiv_lt_0_compat; [|lra]. apply Rdiv_lt_0_compat; [|lra]. apply Rmult_lt_0_compat; [|exact H]. apply Rmult_lt_0_compat; assumption.
Qed.
Lemma dvdp_neg2 : ptR 2 ODVDP p t < 0.
Proof.
  rewrite (a_dvdp _ _ _ F). unfold f_dvdp. change (G_ps (Gib 2)) with 1. change (G_Ts (Gib 2)) with (5400/10). change (Gib 2) with Gib2. rewrite p1.
  pose proof sgn2_pp as H. fold T y. pose proof T_pos2. pose proof Rw_pos.
  assert (0 < Rw * T * - G_pp Gib2 p y / (1 * 1) / 1000); [|lra].
  apply Rdiv_lt_0_compat; [|lra]. apply Rdiv_lt_0_compat; [|lra]. apply Rmult_lt_0_compat; [|lra]. apply Rmult_lt_0_compat; assumption.
Qed.
Lemma cp_pos2 : 0 < ptR 2 OCP p t.
Proof.
  rewrite (a_cp _ _ _ F). unfold f_cp. change (G_ps (Gib 2)) with 1. change (G_Ts (Gib 2)) with (5400/10). change (Gib 2) with Gib2. rewrite p1.
  pose proof sgn2_tt as H. fold T y. pose proof tau_pos2. pose proof Rw_pos.
  replace (- Rw * (y * y) * G_tt Gib2 p y) with (Rw * (y * y) * (- G_tt Gib2 p y)) by ring.
  apply Rmult_lt_0_compat; [|lra]. apply Rmult_lt_0_compat; [|apply Rmult_lt_0_compat]; assumption.
Qed.
Lemma kt_pos2 : 0 < ptR 2 OKT p t.
Proof.
  pose proof v_pos2. pose proof dvdp_neg2. rewrite (id_kt 2 p t D) by lra. apply Rdiv_lt_0_compat; lra.
Qed.
Lemma cv_f2 : ptR 2 OCV p t = Rw * (y * y * G_tt Gib2 p y * G_pp Gib2 p y - (G_p Gib2 p y - y * G_pt Gib2 p y) * (G_p Gib2 p y - y * G_pt Gib2 p y)) / - G_pp Gib2 p y.
Proof.
  pose proof sgn2_pp as N. assert (N' : G_pp (Gib 2) (p / G_ps (Gib 2)) (G_Ts (Gib 2) / (t + Kc)) <> 0).
  { change (G_pp Gib2 (p / 1) y <> 0). rewrite p1. lra. }
  rewrite (a_cv _ _ _ F); [|lia|exact N'].
  unfold f_cv. change (G_ps (Gib 2)) with 1. change (G_Ts (Gib 2)) with (5400/10). change (Gib 2) with Gib2. rewrite p1. fold T y. field. lra.
Qed.
Lemma cv_pos2 : 0 < ptR 2 OCV p t.
Proof. rewrite cv_f2. pose proof sgn2_pp. apply Rdiv_lt_0_compat; [|lra]. apply Rmult_lt_0_compat; [exact Rw_pos|exact sgn2_det]. Qed.
Lemma cp_ge_cv2 : ptR 2 OCV p t <= ptR 2 OCP p t.
Proof.
  pose proof v_pos2. pose proof dvdp_neg2. pose proof kt_pos2. pose proof T_pos2.
  assert (M := id_mayer 2 p t D ltac:(lra) ltac:(lra) ltac:(lia)).
  assert (0 <= 1000 * (t + 273.15) * ptR 2 OV p t * ptR 2 OEC p t ^ 2 / ptR 2 OKT p t); [|lra].
  change (t + 273.15) with T. apply Rmult_le_pos; [|left; apply Rinv_0_lt_compat; assumption].
  apply Rmult_le_pos; [|apply pow2_ge_0]. apply Rmult_le_pos; [|lra]. lra.
Qed.
Lemma w_sq2 : ptR 2 OW p t ^ 2 = 1000000 * ptR 2 OV p t * (ptR 2 OCP p t / ptR 2 OCV p t) / ptR 2 OKT p t
  /\ 0 < 1000000 * ptR 2 OV p t * (ptR 2 OCP p t / ptR 2 OCV p t) / ptR 2 OKT p t.
Proof.
  pose proof v_pos2. pose proof dvdp_neg2. pose proof kt_pos2. pose proof cp_pos2. pose proof cv_pos2.
  assert (0 < ptR 2 OV p t * (ptR 2 OCP p t / ptR 2 OCV p t) / ptR 2 OKT p t).
  { apply Rdiv_lt_0_compat; [|assumption]. apply Rmult_lt_0_compat; [assumption|]. apply Rdiv_lt_0_compat; assumption. }
  split; [apply id_w_cv; try lra; [exact D|lia]|]. unfold Rdiv in *. lra.
Qed.
Lemma w_pos2 : 0 < ptR 2 OW p t.
Proof.
  destruct w_sq2 as [E Q]. rewrite <- E in Q.
  assert (0 <= ptR 2 OW p t); [|destruct (Req_dec (ptR 2 OW p t) 0) as [Z|Z]; [rewrite Z in Q|]; lra].
  change (ptR 2 OW p t) with (@pT2w_reg2 RArith p ((t + Kc)%R : R)). unfold pT2w_reg2. cbv zeta.
  destruct (polys_i_ii_ij_jj_powi_reg2 _ _) as [[[? ?] ?] ?]. apply sqrt_pos.
Qed.
Lemma h_f2 : ptR 2 OH p t = hv p z.
Proof.
  rewrite (a_h _ _ _ F). unfold f_h, hv, Rw. change (G_ps (Gib 2)) with 1. change (G_Ts (Gib 2)) with (5400/10). change (Gib 2) with Gib2. rewrite p1. fold T y.
  rewrite G2_t. field.
Qed.
Lemma s_f2 : ptR 2 OS p t = sv p z.
Proof.
  rewrite (a_s _ _ _ F). unfold f_s, sv, Rw. change (G_ps (Gib 2)) with 1. change (G_Ts (Gib 2)) with (5400/10). change (Gib 2) with Gib2. rewrite p1. fold T y.
  rewrite G2_t, G2_0. unfold vS. rewrite zy. ring.
Qed.
End St.

(* ---- monotonicity along an isobar and an isotherm ---- *)
Lemma h_incr2 p t1 t2 : wide2 p (t1 + Kc) -> t1 < t2 -> t2 + Kc <= 1073.15 -> ptR 2 OH p t1 < ptR 2 OH p t2.
Proof.
  intros W L M. apply (incr_of (fun t => ptR 2 OH p t) (fun t => ptR 2 OCP p t)); [exact L| |]; intros t Ht;
    assert (Wt : wide2 p (t + Kc)) by (apply (wide2_iso _ _ _ W); lra).
  - apply dH_dt. exact (wide2_dom _ _ _ Wt eq_refl).
  - now apply cp_pos2.
Qed.
Lemma s_incr2 p t1 t2 : wide2 p (t1 + Kc) -> t1 < t2 -> t2 + Kc <= 1073.15 -> ptR 2 OS p t1 < ptR 2 OS p t2.
Proof.
  intros W L M. apply (incr_of (fun t => ptR 2 OS p t) (fun t => ptR 2 OCP p t / (t + Kc))); [exact L| |]; intros t Ht;
    assert (Wt : wide2 p (t + Kc)) by (apply (wide2_iso _ _ _ W); lra).
  - apply dS_dt. exact (wide2_dom _ _ _ Wt eq_refl).
  - apply Rdiv_lt_0_compat; [now apply cp_pos2|]. exact (T_pos2 _ _ Wt).
Qed.
Lemma v_decr2 t p1 p2 : 0 < p1 -> p1 < p2 -> wide2 p2 (t + Kc) -> ptR 2 OV p2 t < ptR 2 OV p1 t.
Proof.
  intros A L W. apply Ropp_lt_cancel.
  apply (incr_of (fun p => - ptR 2 OV p t) (fun p => - ptR 2 ODVDP p t)); [exact L| |]; intros p Hp;
    assert (Wt : wide2 p (t + Kc)) by (apply (wide2_less _ _ _ W); lra).
  - exact (dopp _ _ _ (dV_dp 2 p t (wide2_dom _ _ _ Wt eq_refl))).
  - pose proof (dvdp_neg2 p t Wt). lra.
Qed.
