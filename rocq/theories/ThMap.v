(* The region map of th for liquid water and wet steam. *)
From Coq Require Import ZArith Reals List Bool Lra Lia.
From Coquelicot Require Import Coquelicot.
From Interval Require Import Tactic.
From Verif Require Import RegionMap SpecSub3 Num RealInst Constant R4Sat Reg1 Reg2 Reg5 Reg3Td Boundaries Reg1Back Reg2Back Reg3V Reg3 Reg4 Region Api Spec SpecReal SpecWet SatInv RealSat SatApi LeverReal SatBand1 SatBand2 WetGap RSums Gibbs GibbsModel GibbsModel5
  SpecThermo ThermoApi ThermoPts SpecStable SpecSteam SpecGas SpecMap FloatUp FloatErr Taylor TaylorSum Enc1 Bound1 Tree1 TreeT Stab1 Stab2 Stab5 Back2 Map12 TvMap Expand IsoMap SpecIso PvMap.
Open Scope R_scope.

(* ---- the sign of dh/dp in region 1 ---- *)
Lemma iJ1 p t : formula_domain 1 p t -> ptR 1 OIJTC p t = - (Rw * (13860/10) * Pxy Tb (vx p) (vy (t + Kc)) / (1653/100)) / 1000.
Proof.
  intros D. rewrite (a_iJ _ _ _ (facts1 p t D)). unfold f_dhdp. change (G_ps (Gib 1)) with (1653/100). change (G_Ts (Gib 1)) with (13860/10). change (Gib 1) with Gib1.
  change (G_pt Gib1 (p / (1653 / 100)) (13860 / 10 / (t + Kc))) with (- Pxy Tb (vx p) (vy (t + Kc))). unfold Rdiv. ring.
Qed.
Lemma sgn1 k : 0 < k -> 0 < Rw * (13860/10) * k / (1653/100) / 1000.
Proof. intros A. pose proof Rw_pos. apply Rdiv_lt_0_compat; [|lra]. apply Rdiv_lt_0_compat; [|lra]. apply Rmult_lt_0_compat; [|exact A]. apply Rmult_lt_0_compat; lra. Qed.
Lemma y_le T T' : 0 < T' -> T' <= T -> vy T <= vy T'.
Proof. intros A B. unfold vy. assert (13860 / 10 / T <= 13860 / 10 / T'); [|lra]. apply Rmult_le_compat_l; [lra|]. apply Rinv_le_contravar; lra. Qed.
Lemma iJ_pos p t : wide1 p (t + Kc) -> t <= 235 -> 0 < ptR 1 OIJTC p t.
Proof.
  intros W H. rewrite (iJ1 p t (wide_dom _ _ _ W eq_refl)). destruct (wide_in _ _ W) as [[A1 A2] B].
  assert (Y : vy 509.15 <= vy (t + Kc)). { destruct W as [W _]. apply y_le; unfold Kc in *; lra. }
  assert (Y0 : 1.5 <= vy 509.15) by (unfold vy; interval).
  pose proof (neg_h _ _ A1 (conj (Rle_trans _ _ _ Y0 Y) (proj2 A2)) B) as N. pose proof (sgn1 (- Pxy Tb (vx p) (vy (t + Kc))) ltac:(lra)) as G. unfold Rdiv in *. lra.
Qed.
Lemma psat_545 : if97_psat 545 < 5.664. Proof. unfold if97_psat. cbv zeta. interval. Qed.
Lemma psat_600 : if97_psat 600 < 12.345. Proof. unfold if97_psat. cbv zeta. interval. Qed.
Lemma mono_le x y : 273.15 <= x -> x <= y -> y <= 647.096 -> if97_psat x <= if97_psat y.
Proof. intros A [B| ->] C; [left; apply psat_mono; lra|lra]. Qed.
Lemma iJ_neg p t : 250 <= t <= 350 -> 0.1 <= p <= if97_psat (t + Kc) -> ptR 1 OIJTC p t < 0.
Proof.
  intros H Hp. assert (Ht : 523.15 <= t + Kc <= 623.15) by (unfold Kc; lra). pose proof Stab1.psat_623 as P3. pose proof psat_545 as P1. pose proof psat_600 as P2.
  assert (Hp3 : p <= 16.53) by (pose proof (mono_le (t + Kc) 623.15 ltac:(lra) ltac:(lra) ltac:(lra)); lra).
  assert (D : formula_domain 1 p t). { split; [lra|]. unfold Kc in Ht. split; [lra|]. left. split; [reflexivity|lra]. }
  rewrite (iJ1 p t D).
  assert (Y0 : 1.42733 <= vy 523.15 <= 1.4274) by (unfold vy; split; interval). assert (Y1 : 1.3211 <= vy 545 <= 1.32113) by (unfold vy; split; interval).
  assert (Y2 : 1.08799 <= vy 600 <= 1.08801) by (unfold vy; split; interval). assert (Y3 : 1.00217 <= vy 623.15) by (unfold vy; interval).
  assert (X : 0 < Pxy Tb (vx p) (vy (t + Kc))).
  { apply pos_h; [|unfold vx; lra]. destruct (Rle_lt_dec (t + Kc) 545) as [E|E]; [left|right; destruct (Rle_lt_dec (t + Kc) 600) as [F|F]; [left|right]].
    - pose proof (mono_le (t + Kc) 545 ltac:(lra) E ltac:(lra)). pose proof (y_le 545 (t + Kc) ltac:(lra) E). pose proof (y_le (t + Kc) 523.15 ltac:(lra) ltac:(lra)). split; [unfold vx; lra|lra].
    - pose proof (mono_le (t + Kc) 600 ltac:(lra) F ltac:(lra)). pose proof (y_le 600 (t + Kc) ltac:(lra) F). pose proof (y_le (t + Kc) 545 ltac:(lra) ltac:(lra)). split; [unfold vx; lra|lra].
    - pose proof (y_le 623.15 (t + Kc) ltac:(lra) ltac:(lra)). pose proof (y_le (t + Kc) 600 ltac:(lra) ltac:(lra)). split; [unfold vx; lra|lra]. }
  pose proof (sgn1 _ X) as G. unfold Rdiv in *. lra.
Qed.
Lemma h_incr1p t p1 p2 : t <= 235 -> wide1 p1 (t + Kc) -> p1 < p2 -> p2 <= 100 -> ptR 1 OH p1 t < ptR 1 OH p2 t.
Proof.
  intros A W L M. apply (incr_of (fun p => ptR 1 OH p t) (fun p => 1000 * ptR 1 OIJTC p t)); [exact L| |]; intros p Hp;
    assert (Wt : wide1 p (t + Kc)) by (destruct W as (B & C & D); split; [exact B|lra]).
  - apply dH_dp. exact (wide_dom _ _ _ Wt eq_refl).
  - pose proof (iJ_pos p t Wt A). lra.
Qed.
Lemma h_01 t : 250 <= t <= 350 -> ptR 1 OH (if97_psat (t + Kc)) t < ptR 1 OH 0.1 t.
Proof.
  intros H. assert (L : 0.1 < if97_psat (t + Kc)).
  { pose proof (mono_le 523.15 (t + Kc) ltac:(lra) ltac:(unfold Kc; lra) ltac:(unfold Kc; lra)). assert (0.1 < if97_psat 523.15) by (unfold if97_psat; cbv zeta; interval). lra. }
  apply (decr_of (fun p => ptR 1 OH p t) (fun p => 1000 * ptR 1 OIJTC p t)); [exact L| |]; intros p Hp.
  - apply dH_dp. pose proof (ps_range t ltac:(lra)) as Pg. cbv beta zeta in Pg. split; [lra|]. split; [lra|]. left. split; [reflexivity|]. lra.
  - pose proof (iJ_neg p t H Hp). lra.
Qed.

(* ---- the map ---- *)
Section Low.
Variable t : R.
Hypothesis H : 0 <= t <= 350.
Let T := t + Kc.
Let ps := if97_psat T.
Let Rg : 273.15 <= T <= 623.15. Proof. exact (T_range t H). Qed.
Let Pg : 0.0006 < ps < 17. Proof. exact (ps_range t H). Qed.
Lemma h_cold fuel h : t < 250 ->
  (@th_sub_region RArith fuel t h = Some 1%Z <-> ptR 1 OH ps t < h <= ptR 1 OH 100 t) /\
  (@th_sub_region RArith fuel t h = Some 4%Z <-> ptR 1 OH ps t <= h <= ptR 2 OH ps t /\ ~ (ptR 1 OH ps t < h <= ptR 1 OH 100 t)).
Proof.
  intros Hc. pose proof h_gap t H as [G1 G2]. destruct (water_h t H) as [W1 W2]. change (t + Kc) with T in G1, G2, W1, W2. change (if97_psat T) with ps in G1, G2, W1, W2.
  assert (E : ptR 2 OH ps t < ptR 2 OH 1e-8 t) by (apply h_decr2; [lra|lra|apply (w2 t H); fold T ps; lra]).
  assert (R : 273.15 <= T < 523.15) by (pose proof Rg; unfold T, Kc in *; lra). unfold th_sub_region. cbv zeta. change (@add RArith t (@lit RArith (273.15%dec))) with T. rewrite W1, W2, E8, E100.
  change (ptR 2 OH 1e-8 t) with (@pT2h_reg2 RArith 1e-8%R T) in *. change (ptR 1 OH 100 t) with (@pT2h_reg1 RArith 100%R T) in *.
  set (f1 := @pT2h_reg1 RArith) in *. set (f2 := @pT2h_reg2 RArith) in *. set (f3 := @pt_reg3 RArith). set (f5 := @pT2h_reg5 RArith). set (td := @Td2h_reg3 RArith).
  set (b := ptR 1 OH ps t) in *. set (c := ptR 2 OH ps t) in *. set (d := f2 1e-8%R T) in *.
  set (bp := @B23_T2p RArith). set (psa := @p_saturation RArith). set (vs3 := @pT2v_sat_reg3 RArith).
  set (a := f1 100%R T) in *. set (mn := @th_Hmin RArith).
  clearbody f1 f2 f3 f5 a b c d bp psa vs3 td mn T. clear H Hc Rg Pg W1 W2. tkonst. rnum.
  unfold Rle_b, Rlt_b. change INVALID_VALUE with (-9999)%Z. tcases T; vcases; (split; split; [try discriminate; intros; lra|intros; try reflexivity; exfalso; lra|try discriminate; intros; lra|intros; try reflexivity; exfalso; lra]).
Qed.
Lemma h_hot fuel h : 250 <= t ->
  @th_sub_region RArith fuel t h <> Some 1%Z /\
  (@th_sub_region RArith fuel t h = Some 4%Z <-> ptR 1 OH ps t <= h <= ptR 2 OH ps t) /\
  (@th_sub_region RArith fuel t h = Some (-9999)%Z <-> h < ptR 1 OH ps t \/ ptR 2 OH 1e-8 t <= h).
Proof.
  intros Hc. pose proof h_gap t H as [G1 G2]. destruct (water_h t H) as [W1 W2]. pose proof (h_01 t ltac:(lra)) as M. change (t + Kc) with T in G1, G2, W1, W2, M. change (if97_psat T) with ps in G1, G2, W1, W2, M.
  assert (E : ptR 2 OH ps t < ptR 2 OH 1e-8 t) by (apply h_decr2; [lra|lra|apply (w2 t H); fold T ps; lra]).
  assert (R : 523.15 <= T <= 623.15) by (pose proof Rg; unfold T, Kc in *; lra). unfold th_sub_region. cbv zeta. change (@add RArith t (@lit RArith (273.15%dec))) with T. rewrite W1, W2, E8, E100.
  change (ptR 2 OH 1e-8 t) with (@pT2h_reg2 RArith 1e-8%R T) in *. change (ptR 1 OH 100 t) with (@pT2h_reg1 RArith 100%R T) in *. change (ptR 1 OH 0.1 t) with (@pT2h_reg1 RArith 0.1%R T) in *.
  set (f1 := @pT2h_reg1 RArith) in *. set (f2 := @pT2h_reg2 RArith) in *. set (f3 := @pt_reg3 RArith). set (f5 := @pT2h_reg5 RArith). set (td := @Td2h_reg3 RArith).
  set (b := ptR 1 OH ps t) in *. set (c := ptR 2 OH ps t) in *. set (d := f2 1e-8%R T) in *.
  set (bp := @B23_T2p RArith). set (psa := @p_saturation RArith). set (vs3 := @pT2v_sat_reg3 RArith).
  set (a := f1 100%R T) in *. set (mn := @th_Hmin RArith). set (m := f1 0.1%R T) in *.
  assert (Em : f1 (@add RArith (@lit RArith (0.0%dec)) (@lit RArith (0.1%dec))) T = m) by (unfold m; f_equal; rnum; lra).
  assert (Ed : forall x : option Z, (if @ltb RArith (f1 (@add RArith (@lit RArith (0.0%dec)) (@lit RArith (0.1%dec))) T) b then x else Some INVALID_VALUE) = Some INVALID_VALUE).
  { intros x. rewrite Em. rnum. rewrite Rlt_b_false by lra. reflexivity. }
  tkonst. replace (@leb RArith (@lit RArith (273.15%dec)) T) with true by (symmetry; rnum; apply Rle_b_true; lra).
  replace (@leb RArith T (@lit RArith (623.15%dec))) with true by (symmetry; rnum; apply Rle_b_true; lra). cbn [andb]. rewrite Ed.
  clearbody f1 f2 f3 f5 a b c d m bp psa vs3 td mn T. clear H Hc Rg Pg W1 W2 Em Ed. rnum.
  unfold Rle_b, Rlt_b. change INVALID_VALUE with (-9999)%Z. tcases T; vcases; (split; [discriminate|split; split; [try discriminate; intros; try lra|intros; try reflexivity; exfalso; lra|try discriminate; intros; try lra|intros; try reflexivity; exfalso; lra]]).
Qed.
End Low.

(* the statements of the property file *)
Lemma th_cold fuel t h : 0 <= t < 250 -> let ps := if97_psat (t + 273.15) in
  (th_region fuel t h = Some 1 <-> ptR 1 OH ps t < h <= ptR 1 OH 100 t) /\
  (th_region fuel t h = Some 4 <-> ptR 1 OH ps t <= h <= ptR 2 OH ps t /\ ~ (ptR 1 OH ps t < h <= ptR 1 OH 100 t)).
Proof. intros H ps. rewrite (th_some fuel t h 1), (th_some fuel t h 4). apply (h_cold t ltac:(lra) fuel h). lra. Qed.
Lemma th_liquid fuel t h : 0 <= t <= 235 -> (th_region fuel t h = Some 1 <-> exists p, if97_psat (t + 273.15) < p <= 100 /\ h = ptR 1 OH p t).
Proof.
  intros H. rewrite (proj1 (th_cold fuel t h ltac:(lra))). pose proof (ps_range t ltac:(lra)) as Pg. change (t + 273.15) with (t + Kc). set (ps := if97_psat (t + Kc)) in *.
  assert (W : forall p, ps <= p <= 100 -> wide1 p (t + Kc)) by (intros p Hp; apply (w1 t ltac:(lra)); exact Hp).
  assert (S : - ptR 1 OH 100 t <= - h < - ptR 1 OH ps t <-> exists p, ps < p <= 100 /\ - h = - ptR 1 OH p t).
  { apply (span_half (fun p => - ptR 1 OH p t) (fun p => - (1000 * ptR 1 OIJTC p t)) ps 100); [lra| |].
    - intros p Hp. exact (dopp _ _ _ (dH_dp 1 p t (wide_dom _ _ _ (W p Hp) eq_refl))).
    - intros x y A B C. apply Ropp_lt_contravar. apply h_incr1p; [lra|apply W; lra|lra|lra]. }
  split.
  - intros E. destruct (proj1 S ltac:(lra)) as (p & X & Y). exists p. split; [exact X|lra].
  - intros (p & X & Y). pose proof (proj2 S (ex_intro _ p (conj X (f_equal Ropp Y)))). lra.
Qed.
Lemma th_hot fuel t h : 250 <= t <= 350 -> let ps := if97_psat (t + 273.15) in
  th_region fuel t h <> Some 1 /\
  (th_region fuel t h = Some 4 <-> ptR 1 OH ps t <= h <= ptR 2 OH ps t) /\
  (th_region fuel t h = Some (-9999) <-> h < ptR 1 OH ps t \/ ptR 2 OH 1e-8 t <= h).
Proof.
  intros H ps. destruct (h_hot t ltac:(lra) fuel h ltac:(lra)) as (A & B & C). change (Some 1) with (Some (IZR 1)). change (Some 4) with (Some (IZR 4)). change (Some (-9999)) with (Some (IZR (-9999))).
  rewrite (th_some fuel t h 1), (th_some fuel t h 4), (th_some fuel t h (-9999)). split; [exact A|]. split; [exact B|exact C].
Qed.
Lemma th_slope p t : liquid p t -> t <= 235 -> 0 < ptR 1 OIJTC p t.
Proof.
  intros (A & B & C) H. change (t + 273.15) with (t + Kc) in *. apply iJ_pos; [|exact H]. split; [unfold Kc in *; lra|]. lra.
Qed.
Lemma th_slope_sat t : 250 <= t <= 350 -> ptR 1 OIJTC (if97_psat (t + 273.15)) t < 0.
Proof.
  intros H. change (t + 273.15) with (t + Kc). apply iJ_neg; [exact H|]. split; [|lra].
  pose proof (mono_le 523.15 (t + Kc) ltac:(lra) ltac:(unfold Kc; lra) ltac:(unfold Kc; lra)). assert (0.1 < if97_psat 523.15) by (unfold if97_psat; cbv zeta; interval). lra.
Qed.
Lemma th_wet_lost fuel t : 0 <= t <= 235 -> let ps := if97_psat (t + 273.15) in
  exists x, 0 < x < 1 /\ th_region fuel t (ptR 1 OH ps t + x * (ptR 2 OH ps t - ptR 1 OH ps t)) = Some 1.
Proof.
  intros H ps. pose proof (h_gap t ltac:(lra)) as [G1 G2]. change (t + Kc) with (t + 273.15) in G1, G2. change (if97_psat (t + 273.15)) with ps in G1, G2.
  pose proof (ps_range t ltac:(lra)) as Pg. change (if97_psat (t + Kc)) with ps in Pg.
  assert (L : ptR 1 OH ps t < ptR 1 OH 100 t). { apply h_incr1p; [lra|apply (w1 t ltac:(lra)); change (if97_psat (t + Kc)) with ps; lra|lra|lra]. }
  set (a := ptR 1 OH ps t) in *. set (b := ptR 1 OH 100 t) in *. set (c := ptR 2 OH ps t) in *.
  exists ((b - a) / (c - a)). assert (E : (b - a) / (c - a) * (c - a) = b - a) by (field; lra). split.
  - split; [apply Rdiv_lt_0_compat; lra|]. apply (Rmult_lt_reg_r (c - a)); [lra|]. rewrite E. lra.
  - rewrite E. apply (proj1 (th_cold fuel t _ ltac:(lra))). change (if97_psat (t + 273.15)) with ps. fold a b. lra.
Qed.
Lemma th_lost fuel p t : 275 <= t <= 325 -> if97_psat (t + 273.15) < p <= 12.34 -> liquid p t /\ th_region fuel t (ptR 1 OH p t) = Some (-9999).
Proof.
  intros H Hp. pose proof (ps_range t ltac:(lra)) as Pg. change (t + 273.15) with (t + Kc) in Hp. split. { unfold liquid. change (t + 273.15) with (t + Kc). lra. }
  apply th_hot; [lra|]. left. change (t + 273.15) with (t + Kc).
  assert (D : forall q, if97_psat (t + Kc) <= q <= p -> formula_domain 1 q t) by (intros q Hq; split; [lra|]; split; [lra|]; left; split; [reflexivity|lra]).
  apply (decr_of (fun p => ptR 1 OH p t) (fun p => 1000 * ptR 1 OIJTC p t)); [lra| |]; intros q Hq; [apply dH_dp; exact (D q Hq)|].
  rewrite (iJ1 q t (D q Hq)).
  assert (X : 0 < Pxy Tb (vx q) (vy (t + Kc))).
  { assert (Ht : 545 <= t + Kc <= 600) by (unfold Kc; lra). assert (Y1 : vy 545 <= 1.32113) by (unfold vy; interval). assert (Y2 : 1.08799 <= vy 600) by (unfold vy; interval).
    assert (Hl : 0.1 <= if97_psat (t + Kc)).
    { pose proof (mono_le 523.15 (t + Kc) ltac:(lra) ltac:(lra) ltac:(lra)). assert (0.1 < if97_psat 523.15) by (unfold if97_psat; cbv zeta; interval). lra. }
    pose proof (y_le 600 (t + Kc) ltac:(lra) ltac:(lra)). pose proof (y_le (t + Kc) 545 ltac:(lra) ltac:(lra)).
    apply pos_h; [|unfold vx; lra]. right. left. split; [unfold vx; lra|lra]. }
  pose proof (sgn1 _ X) as G. unfold Rdiv in *. lra.
Qed.
Lemma psat_100 : if97_psat (100 + 273.15) < 50.
Proof. assert (if97_psat (100 + 273.15) <= if97_psat 623.15) by (apply mono_le; lra). pose proof Stab1.psat_623. lra. Qed.
Lemma psat_300 : if97_psat (300 + 273.15) < 12.
Proof. assert (if97_psat (300 + 273.15) < 12) by (unfold if97_psat; cbv zeta; interval). lra. Qed.
Lemma th_example fuel : th_region fuel 100 (ptR 1 OH 50 100) = Some 1.
Proof. apply th_liquid; [lra|]. exists 50. split; [|reflexivity]. pose proof psat_100. lra. Qed.
