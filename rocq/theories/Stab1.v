(* Region 1: signs of the partial derivatives, monotonicity, region maps of ph and ps and
   the accuracy of the backward equations, over all states of the region. *)
From Coq Require Import ZArith Reals List Bool Lra Lia.
From Coquelicot Require Import Coquelicot.
From Interval Require Import Tactic.
From Verif Require Import RegionMap SatFloat SpecSub3 Num RealInst Constant R4Sat Reg1 Reg1Back Region Api Spec SpecReal SatInv Sub3 RealSat RSums Gibbs GibbsModel
  SpecThermo ThermoApi FloatErr TaylorSum Enc1 Bound1 Tree1 Tree1ph Tree1ps Tree1hs SpecStable.
Open Scope R_scope.

(* the states over which the covers were computed, by absolute temperature *)
Definition wide1 (p T : R) : Prop := 273.15 <= T <= 623.15 /\ if97_psat T <= p + 1 / 1000000000 /\ p <= 100.
Definition vx (p : R) : R := 71 / 10 - p / (1653 / 100).
Definition vy (T : R) : R := 13860 / 10 / T - 1222 / 1000.

Lemma xp_vx p : xp (vx p) = p. Proof. unfold xp, vx. field. Qed.
Lemma xT_vy T : T <> 0 -> xT (vy T) = T. Proof. intros. unfold xT, vy. field. split; [exact H|lra]. Qed.
Lemma wide_p p T : wide1 p T -> 6 / 10000 < p.
Proof.
  intros (HT & Hp & _). pose proof psat_273. destruct (Req_dec T 273.15) as [->|E]; [lra|].
  assert (if97_psat 273.15 < if97_psat T) by (apply psat_mono; lra). lra.
Qed.
Lemma wide_in p T : wide1 p T -> inbox (vx p) (vy T) /\ reg1xy (vx p) (vy T).
Proof.
  intros W. pose proof (wide_p _ _ W). destruct W as (HT & Hp & Hm). split.
  - unfold inbox, vx, vy, bx0, bx1, by0, by1. flv. split; [lra|].
    assert (13860 / 10 / 623.15 <= 13860 / 10 / T <= 13860 / 10 / 273.15).
    { split; apply Rmult_le_compat_l; try lra; apply Rinv_le_contravar; lra. }
    lra.
  - unfold reg1xy. rewrite xp_vx, xT_vy by lra. lra.
Qed.
Lemma liq_wide p t : liquid p t -> wide1 p (t + Kc).
Proof. unfold liquid, wide1, Kc. change (t + 273.15) with (t + Kc). unfold Kc. intros (A & B & C). lra. Qed.
Lemma wide_dom p T t : wide1 p T -> T = t + Kc -> formula_domain 1 p t.
Proof.
  intros W ->. pose proof (wide_p _ _ W). destruct W as (HT & Hp & Hm). unfold Kc in *. unfold formula_domain.
  split; [lra|]. split; [lra|]. left. split; [reflexivity|]. split; lra.
Qed.

Notation Tb := (map rrow tab1).
Section St.
Variables (p t : R).
Hypothesis W : wide1 p (t + Kc).
Let D := wide_dom _ _ _ W eq_refl.
Let F := facts1 p t D.
Let x := p / (1653 / 100). Let T := t + Kc. Let y := 13860 / 10 / T.
Lemma T_pos1 : 0 < T. Proof. pose proof (proj1 W). unfold T. lra. Qed.
Lemma y_pos1 : 0 < y. Proof. apply Rdiv_lt_0_compat; [lra|exact T_pos1]. Qed.
Lemma sgn_p : 0 < G_p Gib1 x y.
Proof. destruct (wide_in _ _ W) as [A B]. pose proof (neg_x _ _ A B). change (G_p Gib1 x y) with (- Px Tb (vx p) (vy T)). unfold T. lra. Qed.
Lemma sgn_pp : G_pp Gib1 x y < 0.
Proof. destruct (wide_in _ _ W) as [A B]. exact (neg_xx _ _ A B). Qed.
Lemma sgn_tt : G_tt Gib1 x y < 0.
Proof. destruct (wide_in _ _ W) as [A B]. exact (neg_yy _ _ A B). Qed.
Lemma sgn_det : 0 < y * y * G_tt Gib1 x y * G_pp Gib1 x y - (G_p Gib1 x y - y * G_pt Gib1 x y) * (G_p Gib1 x y - y * G_pt Gib1 x y).
Proof.
  destruct (wide_in _ _ W) as [A B]. pose proof (pos_det _ _ A B) as H.
  change (G_p Gib1 x y) with (- Px Tb (vx p) (vy T)). change (G_pt Gib1 x y) with (- Pxy Tb (vx p) (vy T)).
  change (G_tt Gib1 x y) with (Pyy Tb (vx p) (vy T)). change (G_pp Gib1 x y) with (Pxx Tb (vx p) (vy T)).
  change (vy (t + Kc)) with (vy T) in H. replace (vy T + 1222 / 1000) with y in H by (unfold vy, y; ring). lra.
Qed.
Lemma Rw_pos : 0 < Rw. Proof. unfold Rw. lra. Qed.
Lemma v_pos1 : 0 < ptR 1 OV p t.
Proof.
  rewrite (a_v _ _ _ F). unfold f_v. change (G_ps (Gib 1)) with (1653/100). change (G_Ts (Gib 1)) with (13860/10). change (Gib 1) with Gib1.
  pose proof sgn_p as H. fold T x y. pose proof T_pos1. pose proof Rw_pos.
  apply Rdiv_lt_0_compat; [|lra]. apply Rdiv_lt_0_compat; [|lra]. apply Rmult_lt_0_compat; [|exact H]. apply Rmult_lt_0_compat; assumption.
Qed.
Lemma dvdp_neg1 : ptR 1 ODVDP p t < 0.
Proof.
  rewrite (a_dvdp _ _ _ F). unfold f_dvdp. change (G_ps (Gib 1)) with (1653/100). change (G_Ts (Gib 1)) with (13860/10). change (Gib 1) with Gib1.
  pose proof sgn_pp as H. fold T x y. pose proof T_pos1. pose proof Rw_pos.
  assert (0 < Rw * T * - G_pp Gib1 x y / (1653 / 100 * (1653 / 100)) / 1000); [|lra].
  apply Rdiv_lt_0_compat; [|lra]. apply Rdiv_lt_0_compat; [|lra]. apply Rmult_lt_0_compat; [|lra]. apply Rmult_lt_0_compat; assumption.
Qed.
Lemma cp_pos1 : 0 < ptR 1 OCP p t.
Proof.
  rewrite (a_cp _ _ _ F). unfold f_cp. change (G_ps (Gib 1)) with (1653/100). change (G_Ts (Gib 1)) with (13860/10). change (Gib 1) with Gib1.
  pose proof sgn_tt as H. fold T x y. pose proof y_pos1. pose proof Rw_pos.
  replace (- Rw * (y * y) * G_tt Gib1 x y) with (Rw * (y * y) * (- G_tt Gib1 x y)) by ring.
  apply Rmult_lt_0_compat; [|lra]. apply Rmult_lt_0_compat; [|apply Rmult_lt_0_compat]; assumption.
Qed.
Lemma kt_pos1 : 0 < ptR 1 OKT p t.
Proof.
  pose proof v_pos1. pose proof dvdp_neg1. rewrite (id_kt 1 p t D) by lra. apply Rdiv_lt_0_compat; lra.
Qed.
Lemma cv_f : ptR 1 OCV p t = Rw * (y * y * G_tt Gib1 x y * G_pp Gib1 x y - (G_p Gib1 x y - y * G_pt Gib1 x y) * (G_p Gib1 x y - y * G_pt Gib1 x y)) / - G_pp Gib1 x y.
Proof.
  pose proof sgn_pp. rewrite (a_cv _ _ _ F); [|lia|exact (Rlt_not_eq _ _ sgn_pp)].
  unfold f_cv. change (G_ps (Gib 1)) with (1653/100). change (G_Ts (Gib 1)) with (13860/10). change (Gib 1) with Gib1. fold T x y. field. lra.
Qed.
Lemma cv_pos1 : 0 < ptR 1 OCV p t.
Proof. rewrite cv_f. pose proof sgn_pp. apply Rdiv_lt_0_compat; [|lra]. apply Rmult_lt_0_compat; [exact Rw_pos|exact sgn_det]. Qed.
Lemma cp_ge_cv1 : ptR 1 OCV p t <= ptR 1 OCP p t.
Proof.
  pose proof v_pos1. pose proof dvdp_neg1. pose proof kt_pos1. pose proof T_pos1.
  assert (M := id_mayer 1 p t D ltac:(lra) ltac:(lra) ltac:(lia)).
  assert (0 <= 1000 * (t + 273.15) * ptR 1 OV p t * ptR 1 OEC p t ^ 2 / ptR 1 OKT p t); [|lra].
  change (t + 273.15) with T. apply Rmult_le_pos; [|left; apply Rinv_0_lt_compat; assumption].
  apply Rmult_le_pos; [|apply pow2_ge_0]. apply Rmult_le_pos; [|lra]. lra.
Qed.
Lemma w_sq1 : ptR 1 OW p t ^ 2 = 1000000 * ptR 1 OV p t * (ptR 1 OCP p t / ptR 1 OCV p t) / ptR 1 OKT p t
  /\ 0 < 1000000 * ptR 1 OV p t * (ptR 1 OCP p t / ptR 1 OCV p t) / ptR 1 OKT p t.
Proof.
  pose proof v_pos1. pose proof dvdp_neg1. pose proof kt_pos1. pose proof cp_pos1. pose proof cv_pos1.
  assert (0 < ptR 1 OV p t * (ptR 1 OCP p t / ptR 1 OCV p t) / ptR 1 OKT p t).
  { apply Rdiv_lt_0_compat; [|assumption]. apply Rmult_lt_0_compat; [assumption|]. apply Rdiv_lt_0_compat; assumption. }
  split; [apply id_w_cv; try lra; [exact D|lia]|]. unfold Rdiv in *. lra.
Qed.
End St.

(* ---- the speed of sound ---- *)
Lemma w_pos1 p t : wide1 p (t + Kc) -> 0 < ptR 1 OW p t.
Proof.
  intros W. pose proof (wide_dom _ _ _ W eq_refl) as D. destruct (w_sq1 p t W) as [E P]. rewrite <- E in P.
  assert (0 <= ptR 1 OW p t); [|destruct (Req_dec (ptR 1 OW p t) 0) as [Z|Z]; [rewrite Z in P|]; lra].
  change (ptR 1 OW p t) with (@pT2w_reg1 RArith p ((t + Kc)%R : R)). unfold pT2w_reg1. cbv zeta.
  pose proof (sgn_p p t W) as S.
  assert (Q : @polys_i_ii_ij_jj_powi_reg1 RArith (p / (1653 / 100))%R (13860 / 10 / (t + Kc))%R =
    (G_p Gib1 (p / (1653 / 100)) (13860 / 10 / (t + Kc)), G_pp Gib1 (p / (1653 / 100)) (13860 / 10 / (t + Kc)),
     G_pt Gib1 (p / (1653 / 100)) (13860 / 10 / (t + Kc)), G_tt Gib1 (p / (1653 / 100)) (13860 / 10 / (t + Kc)))).
  { apply g1_4; pose proof (wide_p _ _ W); destruct W as (A & B & C).
    - lra.
    - apply tau_pos; lra. }
  change (@r1Tstar RArith) with (13860 / 10). change (@r1pstar RArith) with (1653 / 100).
  change (@div RArith) with Rdiv. rewrite Q. change (@mul RArith) with Rmult. apply Rmult_le_pos; [lra|apply sqrt_pos].
Qed.

(* ---- monotonicity along an isobar and an isotherm ---- *)
Lemma wide_iso p T T' : wide1 p T -> 273.15 <= T' <= T -> wide1 p T'.
Proof.
  intros (A & B & C) H. split; [lra|]. split; [|exact C]. destruct (Req_dec T' T) as [->|E]; [exact B|].
  assert (if97_psat T' < if97_psat T) by (apply psat_mono; lra). lra.
Qed.
Lemma incr_of (f df : R -> R) a b : a < b -> (forall x, a <= x <= b -> is_derive f x (df x)) -> (forall x, a <= x <= b -> 0 < df x) -> f a < f b.
Proof.
  intros L D P. destruct (MVT_gen f a b df) as (c & Hc & E).
  - intros x Hx. rewrite Rmin_left, Rmax_right in Hx by lra. apply D. lra.
  - intros x Hx. rewrite Rmin_left, Rmax_right in Hx by lra. apply derivable_continuous_pt. exists (df x). apply is_derive_Reals, D. lra.
  - rewrite Rmin_left, Rmax_right in Hc by lra. specialize (P c ltac:(lra)). assert (0 < df c * (b - a)) by (apply Rmult_lt_0_compat; lra). lra.
Qed.
Lemma h_incr1 p t1 t2 : 273.15 <= t1 + Kc -> t1 < t2 -> wide1 p (t2 + Kc) -> ptR 1 OH p t1 < ptR 1 OH p t2.
Proof.
  intros A L W. apply (incr_of (fun t => ptR 1 OH p t) (fun t => ptR 1 OCP p t)); [exact L| |]; intros t Ht;
    assert (Wt : wide1 p (t + Kc)) by (apply (wide_iso _ _ _ W); lra).
  - apply dH_dt. exact (wide_dom _ _ _ Wt eq_refl).
  - now apply cp_pos1.
Qed.
Lemma s_incr1 p t1 t2 : 273.15 <= t1 + Kc -> t1 < t2 -> wide1 p (t2 + Kc) -> ptR 1 OS p t1 < ptR 1 OS p t2.
Proof.
  intros A L W. apply (incr_of (fun t => ptR 1 OS p t) (fun t => ptR 1 OCP p t / (t + Kc))); [exact L| |]; intros t Ht;
    assert (Wt : wide1 p (t + Kc)) by (apply (wide_iso _ _ _ W); lra).
  - apply dS_dt. exact (wide_dom _ _ _ Wt eq_refl).
  - apply Rdiv_lt_0_compat; [now apply cp_pos1|]. destruct Wt. lra.
Qed.
Lemma v_decr1 t p1 p2 : wide1 p1 (t + Kc) -> p1 < p2 -> p2 <= 100 -> ptR 1 OV p2 t < ptR 1 OV p1 t.
Proof.
  intros W L M. apply Ropp_lt_cancel.
  apply (incr_of (fun p => - ptR 1 OV p t) (fun p => - ptR 1 ODVDP p t)); [exact L| |]; intros p Hp;
    assert (Wt : wide1 p (t + Kc)) by (destruct W as (A & B & C); split; [exact A|lra]).
  - exact (dopp _ _ _ (dV_dp 1 p t (wide_dom _ _ _ Wt eq_refl))).
  - pose proof (dvdp_neg1 p t Wt). lra.
Qed.

(* ---- the region maps of ph and ps ---- *)
Lemma psat_623 : 16.5291642526045 < if97_psat 623.15 < 16.529164253.
Proof. unfold if97_psat. cbv zeta. split; interval with (i_prec 90). Qed.
Lemma tsat_above p T : 273.15 <= T <= 623.15 -> if97_psat T <= p <= 16.5291642526045 -> T <= if97_tsat p <= 623.15 /\ if97_psat (if97_tsat p) = p.
Proof.
  intros HT Hp. pose proof psat_623. pose proof psat_647. pose proof psat_273.
  assert (if97_psat 273.15 <= if97_psat T). { destruct (Req_dec T 273.15) as [->|E]; [lra|]. left; apply psat_mono; lra. }
  destruct (psat_tsat p ltac:(lra)) as [A B]. split; [|exact B]. split.
  - destruct (Rle_lt_dec T (if97_tsat p)) as [L|L]; [exact L|]. assert (if97_psat (if97_tsat p) < if97_psat T) by (apply psat_mono; lra). lra.
  - destruct (Rle_lt_dec (if97_tsat p) 623.15) as [L|L]; [exact L|]. assert (if97_psat 623.15 < if97_psat (if97_tsat p)) by (apply psat_mono; lra). lra.
Qed.
Ltac bt := repeat apply andb_true_intro; repeat split; first [apply Rle_b_true|apply Rlt_b_true]; lra.
Ltac bf := solve [apply andb_false_intro1; first [apply Rle_b_false|apply Rlt_b_false]; lra | apply andb_false_intro2; first [apply Rle_b_false|apply Rlt_b_false]; lra].
Ltac ift := match goal with |- (if ?c then _ else _) = _ => let E := fresh in assert (E : c = true) by bt; rewrite E; clear E end.
Ltac iff := match goal with |- (if ?c then _ else _) = _ => let E := fresh in assert (E : c = false) by bf; rewrite E; clear E end.
Lemma sub1 (f : R -> R -> R) (p T : R) : wide1 p T -> if97_psat T <= p ->
  (forall t1 t2, 273.15 <= t1 + Kc -> t1 < t2 -> wide1 p (t2 + Kc) -> f p (t1 + Kc) < f p (t2 + Kc)) ->
  f p (27315 / 100) <= f p T /\ (p <= 16.5291642526045 -> f p T <= f p (if97_tsat p)) /\ (16.5291642526045 < p -> f p T <= f p (62315 / 100)).
Proof.
  intros W S M. assert (Mo : forall a b, 273.15 <= a -> a <= b -> wide1 p b -> f p a <= f p b).
  { intros a b A B Wb. destruct (Req_dec a b) as [->|E]; [lra|]. left. replace a with (a - Kc + Kc) by ring. replace b with (b - Kc + Kc) by ring.
    apply M; [|lra|]; replace (a - Kc + Kc) with a by ring; replace (b - Kc + Kc) with b by ring; [exact A|exact Wb]. }
  pose proof psat_623. destruct W as (A & B & C). split; [|split].
  - apply Mo; [lra|lra|split; [exact A|lra]].
  - intros L. destruct (tsat_above p T A ltac:(lra)) as [Q1 Q2]. apply Mo; [lra|lra|]. split; [lra|]. rewrite Q2. lra.
  - intros L. apply Mo; [lra|lra|]. split; [lra|]. replace (62315 / 100) with 623.15 by lra. lra.
Qed.
Lemma liq_min p t : liquid p t -> 0.000611212677444 <= p.
Proof.
  intros H. destruct (liq_wide _ _ H) as (A & _). destruct H as (Ht & H1 & H2). change (t + 273.15) with (t + Kc) in H1. pose proof psat_273.
  destruct (Req_dec (t + Kc) 273.15) as [E|E]; [rewrite E in H1; lra|]. assert (if97_psat 273.15 < if97_psat (t + Kc)) by (apply psat_mono; lra). lra.
Qed.
Lemma ph_map1 p t : liquid p t -> @ph_sub_region RArith p (ptR 1 OH p t) = 1%Z.
Proof.
  intros H. pose proof (liq_wide _ _ H) as W. pose proof (wide_p _ _ W) as Pp. pose proof (liq_min _ _ H) as Pm. destruct H as (Ht & H1 & H2). change (t + 273.15) with (t + Kc) in H1.
  destruct (sub1 (fun p T => @pT2h_reg1 RArith p T) p (t + Kc) W H1) as (L0 & L1 & L2).
  { intros t1 t2 A B C. exact (h_incr1 p t1 t2 A B C). }
  cbv beta in L0, L1, L2. change (@pT2h_reg1 RArith p (t + Kc)%R) with (ptR 1 OH p t) in *. set (h := ptR 1 OH p t) in *.
  unfold ph_sub_region, P_MIN, Ps_623, PC_WATER. cbv zeta. set (f1 := @pT2h_reg1 RArith) in *. set (f2 := @Reg2.pT2h_reg2 RArith). set (f5 := @Reg5.pT2h_reg5 RArith). set (ts := @T_saturation RArith). rnum. 
  destruct (Rle_lt_dec p 16.5291642526045) as [Lp|Lp].
  - ift. unfold ts. rewrite tsat_real by lra. specialize (L1 Lp). ift. reflexivity.
  - iff. specialize (L2 Lp). destruct (Rlt_le_dec p 22.064) as [Lq|Lq].
    + ift. ift. reflexivity.
    + iff. ift. ift. reflexivity.
Qed.
Lemma ps_map1 p t : liquid p t -> @ps_sub_region RArith p (ptR 1 OS p t) = 1%Z.
Proof.
  intros H. pose proof (liq_wide _ _ H) as W. pose proof (wide_p _ _ W) as Pp. pose proof (liq_min _ _ H) as Pm.
  destruct H as (Ht & H1 & H2). change (t + 273.15) with (t + Kc) in H1.
  destruct (sub1 (fun p T => @pT2s_reg1 RArith p T) p (t + Kc) W H1) as (L0 & L1 & L2).
  { intros t1 t2 A B C. exact (s_incr1 p t1 t2 A B C). }
  cbv beta in L0, L1, L2. change (@pT2s_reg1 RArith p (t + Kc)%R) with (ptR 1 OS p t) in *. set (s := ptR 1 OS p t) in *.
  unfold ps_sub_region, P_MIN, Ps_623, PC_WATER. cbv zeta. set (f1 := @pT2s_reg1 RArith) in *. set (f2 := @Reg2.pT2s_reg2 RArith). set (f5 := @Reg5.pT2s_reg5 RArith). set (ts := @T_saturation RArith). rnum.
  destruct (Rle_lt_dec p 16.5291642526045) as [Lp|Lp].
  - ift. unfold ts. rewrite tsat_real by lra. specialize (L1 Lp). ift. reflexivity.
  - iff. specialize (L2 Lp). destruct (Rlt_le_dec p 22.064) as [Lq|Lq].
    + ift. ift. reflexivity.
    + iff. ift. ift. reflexivity.
Qed.

(* ---- the backward equations ---- *)
Lemma h_eta p t : wide1 p (t + Kc) -> ptR 1 OH p t / (25000 / 10) + 10 / 10 = eta25 (vx p) (vy (t + Kc)) /\
  ptR 1 OH p t / (34000 / 10) + 5 / 100 = eta34 (vx p) (vy (t + Kc)).
Proof.
  intros W. rewrite (a_h _ _ _ (facts1 p t (wide_dom _ _ _ W eq_refl))). unfold f_h, eta25, eta34, Rw. change (Gib 1) with Gib1.
  change (G_t Gib1 (p / G_ps Gib1) (G_Ts Gib1 / (t + Kc))) with (Py Tb (vx p) (vy (t + Kc))). change (G_Ts Gib1) with (13860 / 10). split; field.
Qed.
Lemma s_sig p t : wide1 p (t + Kc) -> ptR 1 OS p t / (10 / 10) + 20 / 10 = sig2 (vx p) (vy (t + Kc)) /\
  ptR 1 OS p t / (76 / 10) + 5 / 100 = sig76 (vx p) (vy (t + Kc)).
Proof.
  intros W. rewrite (a_s _ _ _ (facts1 p t (wide_dom _ _ _ W eq_refl))). unfold f_s, sig2, sig76, Rw. change (Gib 1) with Gib1.
  change (G_t Gib1 (p / G_ps Gib1) (G_Ts Gib1 / (t + Kc))) with (Py Tb (vx p) (vy (t + Kc))).
  change (G_0 Gib1 (p / G_ps Gib1) (G_Ts Gib1 / (t + Kc))) with (P Tb (vx p) (vy (t + Kc))). change (G_Ts Gib1) with (13860 / 10).
  replace (vy (t + Kc) + 1222 / 1000) with (13860 / 10 / (t + Kc)) by (unfold vy; ring).
  generalize (13860 / 10 / (t + Kc)). intros u. split; field.
Qed.
Lemma ph_back1 p t : wide1 p (t + Kc) -> Rabs (@ph2T_reg1 RArith p (ptR 1 OH p t) - (t + Kc)) <= 25 / 1000.
Proof.
  intros W. destruct (wide_in _ _ W) as [A B]. pose proof (gap_ph_le _ _ A B) as G.
  unfold ph2T_reg1. cbv zeta. rewrite poly_powi_P. change (@ph2T_reg1_IJn RArith) with (map rrow tph1).
  rewrite xp_vx, xT_vy in G by (destruct W; lra). rewrite <- (proj1 (h_eta p t W)) in G.
  revert G. generalize (ptR 1 OH p t). intros h. rnum. replace (p / (10 / 10)) with p by field.
  match goal with |- context [10 / 10 * ?q] => replace (10 / 10 * q) with q by field end. auto.
Qed.
Lemma ps_back1 p t : wide1 p (t + Kc) -> Rabs (@ps2T_reg1 RArith p (ptR 1 OS p t) - (t + Kc)) <= 25 / 1000.
Proof.
  intros W. destruct (wide_in _ _ W) as [A B]. pose proof (gap_ps_le _ _ A B) as G.
  unfold ps2T_reg1. cbv zeta. rewrite poly_powi_P. change (@ps2T_reg1_IJn RArith) with (map rrow tps1).
  rewrite xp_vx, xT_vy in G by (destruct W; lra). rewrite <- (proj1 (s_sig p t W)) in G.
  revert G. generalize (ptR 1 OS p t). intros h. rnum. replace (p / (10 / 10)) with p by field.
  match goal with |- context [10 / 10 * ?q] => replace (10 / 10 * q) with q by field end. auto.
Qed.
Lemma hs_back1 p t : wide1 p (t + Kc) -> Rabs (@hs2p_reg1 RArith (ptR 1 OH p t) (ptR 1 OS p t) - p) <= 15 / 1000.
Proof.
  intros W. destruct (wide_in _ _ W) as [A B]. pose proof (gap_hs_le _ _ A B) as G.
  unfold hs2p_reg1. cbv zeta. rewrite poly_powi_P. change (@hs2p_reg1_IJn RArith) with (map rrow ths1).
  rewrite xp_vx in G. rewrite <- (proj2 (h_eta p t W)), <- (proj2 (s_sig p t W)) in G.
  revert G. generalize (ptR 1 OH p t) (ptR 1 OS p t). intros h s. rnum.
  match goal with |- context [1000 / 10 * ?q] => replace (1000 / 10 * q) with (100 * q) by field end. auto.
Qed.

(* ---- at the level of the API ---- *)
Lemma ph_known (N : Arith) (p h : num) r o : ph_sub_region p h = r -> r <> REGION_NONE -> ph p h (from_i32 o) = ph p h (from_pair (o, r)).
Proof.
  intros E Nr. unfold ph, from_i32, from_pair, default_args, o_id_reg_info. cbn [args_o_id args_region fst snd].
  unfold pair_properties. rewrite Z.eqb_refl, E. destruct (Z.eqb_spec r REGION_NONE); [contradiction|]. reflexivity.
Qed.
Lemma ps_known (N : Arith) (p h : num) r o : ps_sub_region p h = r -> r <> REGION_NONE -> ps p h (from_i32 o) = ps p h (from_pair (o, r)).
Proof.
  intros E Nr. unfold ps, from_i32, from_pair, default_args, o_id_reg_info. cbn [args_o_id args_region fst snd].
  unfold pair_properties. rewrite Z.eqb_refl, E. destruct (Z.eqb_spec r REGION_NONE); [contradiction|]. reflexivity.
Qed.
Lemma ph_region1 p t : liquid p t -> phR OR p (ptR 1 OH p t) = 1.
Proof. intros H. unfold phR. rewrite (ph_known _ _ _ 1%Z OR (ph_map1 p t H)) by discriminate. reflexivity. Qed.
Lemma ps_region1 p t : liquid p t -> psR OR p (ptR 1 OS p t) = 1.
Proof. intros H. unfold psR. rewrite (ps_known _ _ _ 1%Z OR (ps_map1 p t H)) by discriminate. reflexivity. Qed.
Lemma ph_t1 p t : liquid p t -> Rabs (phR OT p (ptR 1 OH p t) - t) <= 0.025.
Proof.
  intros H. pose proof (ph_back1 p t (liq_wide _ _ H)) as B. unfold phR. rewrite (ph_known _ _ _ 1%Z OT (ph_map1 p t H)) by discriminate.
  change (@ph RArith p (ptR 1 OH p t) (from_pair (OT, 1%Z))) with (@ph2T_reg1 RArith p (ptR 1 OH p t) - Kc).
  replace (@ph2T_reg1 RArith p (ptR 1 OH p t) - Kc - t) with (@ph2T_reg1 RArith p (ptR 1 OH p t) - (t + Kc)) by ring. lra.
Qed.
Lemma ps_t1 p t : liquid p t -> Rabs (psR OT p (ptR 1 OS p t) - t) <= 0.025.
Proof.
  intros H. pose proof (ps_back1 p t (liq_wide _ _ H)) as B. unfold psR. rewrite (ps_known _ _ _ 1%Z OT (ps_map1 p t H)) by discriminate.
  change (@ps RArith p (ptR 1 OS p t) (from_pair (OT, 1%Z))) with (@ps2T_reg1 RArith p (ptR 1 OS p t) - Kc).
  replace (@ps2T_reg1 RArith p (ptR 1 OS p t) - Kc - t) with (@ps2T_reg1 RArith p (ptR 1 OS p t) - (t + Kc)) by ring. lra.
Qed.
Lemma hs_p1 fuel p t : liquid p t -> exists q, @hs RArith fuel (ptR 1 OH p t) (ptR 1 OS p t) (from_pair (OP, 1%Z)) = Some q /\ Rabs (q - p) <= 0.015.
Proof.
  intros H. exists (@hs2p_reg1 RArith (ptR 1 OH p t) (ptR 1 OS p t)). split; [reflexivity|].
  pose proof (hs_back1 p t (liq_wide _ _ H)). lra.
Qed.
Lemma h_liq p t1 t2 : 0 <= t1 -> t1 < t2 -> liquid p t2 -> ptR 1 OH p t1 < ptR 1 OH p t2.
Proof. intros A L H. apply h_incr1; [unfold Kc; lra|exact L|exact (liq_wide _ _ H)]. Qed.
Lemma s_liq p t1 t2 : 0 <= t1 -> t1 < t2 -> liquid p t2 -> ptR 1 OS p t1 < ptR 1 OS p t2.
Proof. intros A L H. apply s_incr1; [unfold Kc; lra|exact L|exact (liq_wide _ _ H)]. Qed.
Lemma liq_unique p t1 t2 : liquid p t1 -> liquid p t2 ->
  (ptR 1 OH p t1 = ptR 1 OH p t2 \/ ptR 1 OS p t1 = ptR 1 OS p t2) -> t1 = t2.
Proof.
  intros A B E. destruct (Rtotal_order t1 t2) as [L|[L|L]]; [|exact L|].
  - pose proof (h_liq p t1 t2 (proj1 (proj1 A)) L B). pose proof (s_liq p t1 t2 (proj1 (proj1 A)) L B). destruct E; lra.
  - pose proof (h_liq p t2 t1 (proj1 (proj1 B)) L A). pose proof (s_liq p t2 t1 (proj1 (proj1 B)) L A). destruct E; lra.
Qed.
