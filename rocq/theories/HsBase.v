(* Region 2 for the region of (h,s): every isobar starts on one of the two lines of Enc2m, and
   the facts of the line carry over to the states above it. *)
From Coq Require Import ZArith Floats Reals List Bool Lra Lia.
From Coquelicot Require Import Coquelicot.
From Interval Require Import Tactic.
From Verif Require Import Num RealInst Constant Api SpecReal SatInv RealSat RSums Gibbs GibbsModel
  SpecThermo ThermoApi FloatErr FloatUp Steps Taylor TaylorSum Enc1 Enc2 Enc2hs Enc2m Bound1 Tree1 Bound2 Tree2 Bound2hs Bound2m Tree2m HsLine SpecSub3 SpecStable SpecSteam SpecHs Stab1 Stab2 Expand Back2 Back2hs Map12.
Import ListNotations.
Open Scope R_scope.

Ltac flh H := revert H; flv; intros H.
(* ---- h and s of a state ---- *)
Lemma h_dom p t : formula_domain 2 p t -> ptR 2 OH p t = hv p (wy (t + Kc)).
Proof.
  intros D. pose proof D as (_ & Tp & _). change (t + 273.15) with (t + Kc) in Tp. rewrite (a_h _ _ _ (facts2 p t D)). unfold f_h, hv, Rw. change (G_ps (Gib 2)) with 1. change (G_Ts (Gib 2)) with (5400/10). change (Gib 2) with Gib2.
  rewrite p1. replace (G_t Gib2 p (5400 / 10 / (t + Kc))) with (vH p (wy (t + Kc))); [field|].
  unfold vH. replace (wy (t + Kc) + 1 / 2) with (5400 / 10 / (t + Kc)) by (unfold wy; field; lra). reflexivity.
Qed.
Lemma s_dom p t : formula_domain 2 p t -> ptR 2 OS p t = sv p (wy (t + Kc)).
Proof.
  intros D. pose proof D as (_ & Tp & _). change (t + 273.15) with (t + Kc) in Tp. rewrite (a_s _ _ _ (facts2 p t D)). unfold f_s, sv, Rw. change (G_ps (Gib 2)) with 1. change (G_Ts (Gib 2)) with (5400/10). change (Gib 2) with Gib2.
  rewrite p1. unfold vS. replace (wy (t + Kc) + 1 / 2) with (5400 / 10 / (t + Kc)) by (unfold wy; field; lra).
  replace (vH p (wy (t + Kc))) with (G_t Gib2 p (5400 / 10 / (t + Kc))).
  2:{ unfold vH. replace (wy (t + Kc) + 1 / 2) with (5400 / 10 / (t + Kc)) by (unfold wy; field; lra). reflexivity. }
  change (G_0 Gib2 p (5400 / 10 / (t + Kc))) with (ln p + P Ti2 1 (5400 / 10 / (t + Kc)) + P Tb2 p (wy (t + Kc))). ring.
Qed.

(* ---- along an isobar ---- *)
Lemma hs_iso p t1 t2 c : wide2 p (t1 + Kc) -> t1 <= t2 -> t2 + Kc <= 1073.15 -> c <= t1 + Kc ->
  c * (ptR 2 OS p t2 - ptR 2 OS p t1) <= ptR 2 OH p t2 - ptR 2 OH p t1.
Proof.
  intros W L M C.
  pose proof (slope_le (fun t => c * ptR 2 OS p t - ptR 2 OH p t) (fun t => c * (ptR 2 OCP p t / (t + Kc)) - ptR 2 OCP p t) t1 t2 0 L) as H.
  cut (c * ptR 2 OS p t2 - ptR 2 OH p t2 - (c * ptR 2 OS p t1 - ptR 2 OH p t1) <= 0 * (t2 - t1)); [lra|]. apply H; intros t Ht;
    (assert (Wt : wide2 p (t + Kc)) by (apply (wide2_iso _ _ _ W); lra)).
  - apply (is_derive_minus (K := R_AbsRing) (V := R_NormedModule)); [apply is_derive_scal, dS_dt|apply dH_dt]; exact (wide2_dom _ _ _ Wt eq_refl).
  - pose proof (cp_pos2 p t Wt) as Cp. pose proof (T_pos2 _ _ Wt) as Tp.
    replace (c * (ptR 2 OCP p t / (t + Kc)) - ptR 2 OCP p t) with (- (ptR 2 OCP p t / (t + Kc) * (t + Kc - c))) by (field; lra).
    assert (0 <= ptR 2 OCP p t / (t + Kc) * (t + Kc - c)); [|lra]. apply Rmult_le_pos; [|lra]. left. apply Rdiv_lt_0_compat; assumption.
Qed.
Lemma s_iso p t1 t2 : wide2 p (t1 + Kc) -> t1 <= t2 -> t2 + Kc <= 1073.15 -> ptR 2 OS p t1 <= ptR 2 OS p t2.
Proof. intros W L M. destruct (Req_dec t1 t2) as [->|N]; [lra|]. left. apply s_incr2; [exact W|lra|exact M]. Qed.
Lemma h_iso p t1 t2 : wide2 p (t1 + Kc) -> t1 <= t2 -> t2 + Kc <= 1073.15 -> ptR 2 OH p t1 <= ptR 2 OH p t2.
Proof. intros W L M. destruct (Req_dec t1 t2) as [->|N]; [lra|]. left. apply h_incr2; [exact W|lra|exact M]. Qed.

(* ---- the states ---- *)
Lemma dry_vap p t : dry p t -> vapour p t.
Proof.
  intros (Hp & Ht & A & B). pose proof psat_273. unfold vapour. split; [lra|]. split; [lra|]. split; intros E.
  - specialize (A E). assert (if97_psat (t + 273.15 - 0.1) < if97_psat (t + 273.15)) by (apply psat_mono; lra). lra.
  - specialize (B E). lra.
Qed.
Lemma ps_62305 : 16.5088 < if97_psat 623.05. Proof. unfold if97_psat. cbv zeta. interval. Qed.
Lemma ps_623094 : 16.517 < if97_psat 623.094. Proof. unfold if97_psat. cbv zeta. interval. Qed.
Lemma ps_5199 : 3.6 < if97_psat 519.9. Proof. unfold if97_psat. cbv zeta. interval. Qed.
Lemma ps_low : if97_psat 273.1517 <= 1.00013 * if97_psat 273.15. Proof. unfold if97_psat. cbv zeta. interval with (i_prec 60). Qed.
Lemma xB_eq T : xB T = if97_b23 T / 1.001. Proof. unfold xB, if97_b23. lra. Qed.
Lemma xB_der T : is_derive xB T (10192970039326 / 10010000000000000 * (2 * T) + -11671859879975 / 10010000000000).
Proof. unfold xB. auto_derive; [exact I|]. field. Qed.
Lemma wy_yB T : wy T = yB T. Proof. unfold wy, yB. lra. Qed.

(* the facts used: the state (p, t) lies on one of the lines *)
Definition base (p t : R) : Prop := wide2 p (t + Kc) /\
  (FA p (wy (t + Kc)) /\ if97_psat (t + Kc - 0.1) = p /\ t + Kc <= 623.15 \/ FB p (wy (t + Kc)) /\ 623 < t + Kc /\ 16 < p).
Lemma base_A p : 1.00013 * if97_psat 273.15 <= p <= if97_psat 623.05 -> base p (if97_tsat p + 0.1 - Kc) /\ if97_tsat p <= 623.05 /\ if97_psat (if97_tsat p) = p.
Proof.
  intros Hp. pose proof psat_273 as P0. pose proof psat_647. pose proof ps_62305. pose proof psat_623.
  assert (P5 : if97_psat 623.05 < if97_psat 647.096) by (apply psat_mono; lra).
  assert (P6 : if97_psat 623.05 < if97_psat 623.15) by (apply psat_mono; lra).
  destruct (psat_tsat p ltac:(lra)) as [A B]. set (T := if97_tsat p) in *.
  assert (U : T <= 623.05).
  { destruct (Rle_lt_dec T 623.05) as [L|L]; [exact L|]. assert (if97_psat 623.05 < if97_psat T) by (apply psat_mono; lra). lra. }
  assert (Lo : 273.1517 <= T).
  { destruct (Rle_lt_dec 273.1517 T) as [L|L]; [exact L|]. assert (if97_psat T < if97_psat 273.1517) by (apply psat_mono; lra). pose proof ps_low. lra. }
  split; [|split; [exact U|exact B]]. replace (T + 0.1 - Kc + Kc) with (T + 0.1) by ring. unfold base. replace (T + 0.1 - Kc + Kc) with (T + 0.1) by ring. split.
  - assert (if97_psat T < if97_psat (T + 0.1)) by (apply psat_mono; lra). split; [lra|]. split; [lra|]. split; intros; lra.
  - left. split; [|split; [replace (T + 0.1 - 0.1) with T by ring; exact B|lra]]. set (y := wy (T + 0.1)). assert (Ey : yT y = T + 0.1) by (apply yT_wy; lra).
    assert (Et : Ts_of y = T) by (unfold Ts_of; rewrite Ey; lra).
    assert (E : xq (bs y) = p) by (unfold bs; rewrite Et, <- B, psat_be; unfold xq; ring). rewrite <- E. apply cov_A; [|rewrite Et; exact A].
    replace (endp 0%float guess) with (0x1.79e84p+0)%float by (vm_compute; reflexivity). unfold y, wy. flv.
    assert (5400 / 10 / 623.15 <= 5400 / 10 / (T + 0.1) <= 5400 / 10 / 273.2517).
    { split; apply Rmult_le_compat_l; try lra; apply Rinv_le_contravar; lra. } 
    lra.
Qed.
Lemma base_B p : if97_psat 623.05 < p <= 99.8 -> exists T, 623 < T /\ T < 863.15 /\ base p (T - Kc) /\ if97_b23 T = 1.001 * p.
Proof.
  intros Hp. pose proof ps_62305 as P1.
  assert (X0 : xB 623.094 <= 16.508) by (unfold xB; interval). assert (X1 : 99.85 <= xB 863.15) by (unfold xB; interval).
  assert (V0 : val f623 <= 623.094) by (unfold f623; flv; lra). assert (V1 : 863.15 <= val f863) by (unfold f863; flv; lra).
  destruct (onto xB (fun T => 10192970039326 / 10010000000000000 * (2 * T) + -11671859879975 / 10010000000000) 623.094 863.15 p) as (T & HT & E); [lra|intros; apply xB_der|lra|].
  assert (Eb : if97_b23 T = 1.001 * p) by (rewrite xB_eq in E; lra).
  assert (NT : T < 863.15). { destruct (Rlt_le_dec T 863.15) as [L|L]; [exact L|]. assert (T = 863.15) by lra. subst T. lra. }
  exists T. split; [lra|]. split; [exact NT|]. split; [|exact Eb]. unfold base. replace (T - Kc + Kc) with T by ring.
  split.
  - split; [lra|]. split; [lra|]. split; intros L.
    + assert (if97_b23 T <= if97_b23 623.15) by (apply b23_incr; lra). pose proof b23T_e2.
      assert (if97_psat 623.094 <= if97_psat T) by (destruct (Req_dec 623.094 T) as [<-|N]; [lra|left; apply psat_mono; lra]). pose proof ps_623094. lra.
    + lra.
  - right. split; [|split; lra]. rewrite wy_yB, <- E. apply cov_B; [lra|rewrite E; lra|].
    unfold yB. assert (540 / 1 * / 863.15 <= 540 / 1 * / T) by (apply Rmult_le_compat_l; [lra|apply Rinv_le_contravar; lra]). lra.
Qed.
Lemma base_of p t : dry p t -> exists t0, base p t0 /\ t0 <= t.
Proof.
  intros (Hp & Ht & A & B). pose proof psat_273. destruct (Rle_lt_dec p (if97_psat 623.05)) as [L|L].
  - destruct (base_A p ltac:(lra)) as (Ba & U & E). exists (if97_tsat p + 0.1 - Kc). split; [exact Ba|]. unfold Kc.
    destruct (Rle_lt_dec t 350) as [C|C]; [|lra]. specialize (A C). destruct (Rle_lt_dec (if97_tsat p) (t + 273.15 - 0.1)) as [M|M]; [lra|].
    assert (if97_psat (t + 273.15 - 0.1) < if97_psat (if97_tsat p)) by (apply psat_mono; lra). lra.
  - destruct (base_B p ltac:(lra)) as (T & T1 & T2 & Ba & E). exists (T - Kc). split; [exact Ba|]. unfold Kc.
    destruct (Rle_lt_dec t 350) as [C|C].
    { specialize (A C). assert (if97_psat (t + 273.15 - 0.1) <= if97_psat 623.05) by (destruct (Req_dec (t + 273.15 - 0.1) 623.05) as [->|N]; [lra|left; apply psat_mono; lra]). lra. }
    destruct (Rle_lt_dec t 590) as [D|D]; [|lra]. specialize (B ltac:(lra)). destruct (Rle_lt_dec T (t + 273.15)) as [M|M]; [lra|].
    exfalso. assert (0 < (T - (t + 273.15)) * (0.0010192970039326 * (T + (t + 273.15)) - 1.1671859879975)) by (apply Rmult_lt_0_compat; lra).
    rewrite <- E in B. unfold if97_b23 in B. lra.
Qed.

Lemma line_vals : val f585l < 5.85 /\ 5.85 < val f585h /\ 9.15576 < val f915 /\ val f915 < 9.1575 /\ 5.1995 < val f52 /\ 5.0491 < val f504 /\ val f504 < 5.05 /\ val f530 < 5.3 /\ 2563.5 < val f2563 /\ val f552 = 552 /\ val f617 = 617 /\ val f520 = 520 /\
  val f526l < 5.260578707 /\ 5.260578707 < val f526h /\ val f2812h < 2813 /\ 6.04 < val f604 /\ val f604 < 6.05 /\ val f509 < 5.1.
Proof. unfold f585l, f585h, f915, f52, f504, f530, f2563, f552, f617, f520, f526l, f526h, f2812h, f604, f509. flv. repeat split; lra. Qed.

(* ---- above the saturation line ---- *)
Section Above.
Variables (p t t0 : R).
Hypothesis B : base p t0.
Hypothesis Lt : t0 <= t.
Hypothesis Ut : t + Kc <= 1073.15.
Let h := ptR 2 OH p t. Let s := ptR 2 OS p t. Let h0 := ptR 2 OH p t0. Let s0 := ptR 2 OS p t0.
Let W := proj1 B.
Let Eh : hv p (wy (t0 + Kc)) = h0. Proof. symmetry. exact (h_f2 p t0 W). Qed.
Let Es : sv p (wy (t0 + Kc)) = s0. Proof. symmetry. exact (s_f2 p t0 W). Qed.
Let ET : yT (wy (t0 + Kc)) = t0 + Kc. Proof. apply yT_wy. pose proof (proj1 (proj2 W)). lra. Qed.
Let Ss : s0 <= s. Proof. exact (s_iso p t0 t W Lt Ut). Qed.
Let Hh : h0 <= h. Proof. exact (h_iso p t0 t W Lt Ut). Qed.
Let T0 : 273.15 <= t0 + Kc. Proof. exact (proj1 (proj1 (proj2 W))). Qed.
Lemma s_low : val f504 < s.
Proof.
  pose proof line_vals. destruct (proj2 B) as [((_ & A2 & _) & _)|((B1 & _) & _)]; rewrite ?Eh, ?Es, ?ET in *; [|lra].
  destruct (Rle_lt_dec s0 (val f585h)) as [L|L]; [specialize (A2 L)|]; lra.
Qed.
Let below585 : s0 < 5.85 -> Ucbr s0 + / 16 < h0 /\ exists m, m <= t0 + Kc /\ 273 <= m /\ forall b, s0 <= b -> b <= 5.86 -> Ucbr b - Ucbr s0 <= m * (b - s0).
Proof.
  intros L. pose proof line_vals. destruct (proj2 B) as [((_ & A2 & _) & _)|((B1 & B2 & B3 & B4 & _) & B5 & _)]; rewrite ?Eh, ?Es, ?ET in *.
  - destruct (A2 ltac:(lra)) as (C1 & C2 & C3). split; [exact C3|]. exists 552. split; [lra|]. split; [lra|]. intros b H1 H2. apply Ucb_slope1; lra.
  - split; [exact B4|]. exists 622. split; [lra|]. split; [lra|]. intros b H1 H2. apply Ucb_slope2; lra.
Qed.
Lemma above_cb : s < 5.85 -> Ucbr s < h.
Proof.
  intros L. destruct (below585 ltac:(lra)) as (C & m & M1 & M2 & M3). pose proof (hs_iso p t0 t m W Lt Ut M1) as I. fold h s h0 s0 in I.
  specialize (M3 s Ss ltac:(lra)). lra.
Qed.
Lemma above_ab : 5.85 <= s -> s <= 9.15576 -> Uabr s < h.
Proof.
  intros L U. pose proof line_vals. pose proof (hs_iso p t0 t) as I. destruct (Rlt_le_dec s0 5.85) as [C|C].
  - destruct (below585 C) as (D & m & M1 & M2 & M3). specialize (I m W Lt Ut M1). fold h s h0 s0 in I. specialize (M3 5.85 ltac:(lra) ltac:(lra)).
    pose proof (Uab_slope 5.85 s ltac:(lra) L ltac:(lra)). pose proof U_join. assert (273 * (s - 5.85) <= m * (s - 5.85)) by (apply Rmult_le_compat_r; lra). lra.
  - destruct (proj2 B) as [((A1 & _) & _)|((_ & B1 & _) & _)]; rewrite ?Eh, ?Es, ?ET in *; [|lra].
    specialize (A1 ltac:(lra)). specialize (I 273 W Lt Ut ltac:(lra)). fold h s h0 s0 in I. pose proof (Uab_slope s0 s ltac:(lra) Ss ltac:(lra)). lra.
Qed.
Lemma above_4v : - (97 / 32768) <= h - 273.15 * s.
Proof.
  pose proof line_vals. pose proof (hs_iso p t0 t 273.15 W Lt Ut ltac:(lra)) as I. fold h s h0 s0 in I.
  destruct (proj2 B) as [((_ & _ & _ & _ & A5) & _)|((B1 & B2 & B3 & _) & _)]; rewrite ?Eh, ?Es, ?ET in *; lra.
Qed.
Lemma base_th : s0 <= val f526h -> h0 <= val f2812h -> val f2563 < h0 /\ 0 < gspr p h0 s0.
Proof.
  intros L1 L2. destruct (proj2 B) as [((_ & _ & A3 & _) & _)|((_ & _ & B3 & _ & B5) & _)]; rewrite ?Eh, ?Es, ?ET in *.
  - destruct (A3 L1) as (_ & C1 & C2). split; assumption.
  - split; [exact B3|exact (B5 L1 L2)].
Qed.
Lemma p_high : s <= val f604 -> 3.6 <= p.
Proof.
  intros L. pose proof line_vals. destruct (proj2 B) as [((_ & _ & _ & A4 & _) & E & C)|(_ & _ & B5)]; [|lra]. rewrite ?Eh, ?Es, ?ET in *.
  specialize (A4 ltac:(lra)). assert (if97_psat 519.9 < if97_psat (t0 + Kc - 0.1)) by (apply psat_mono; lra). pose proof ps_5199. lra.
Qed.
End Above.
