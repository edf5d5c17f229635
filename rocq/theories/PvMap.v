(* The region map of pv on an isobar. *)
From Coq Require Import ZArith Reals List Bool Lra Lia.
From Coquelicot Require Import Coquelicot.
From Interval Require Import Tactic.
From Verif Require Import RegionMap SpecSub3 Num RealInst Constant R4Sat Reg1 Reg2 Reg5 Boundaries Reg1Back Reg2Back Reg3V Reg3 Reg4 Region Api Spec SpecReal SpecWet SatInv Sub3 RealSat SatApi LeverReal SatBand1 SatBand2 WetGap RSums Gibbs GibbsModel GibbsModel5
  SpecThermo ThermoApi ThermoPts SpecStable SpecSteam SpecGas SpecMap Stab1 Stab2 Stab5 Back2 Map12 TvMap Expand IsoMap Gap25 SpecIso.
Import ListNotations.
Open Scope R_scope.

Lemma v9 p : 0 <= p <= 100 -> f_v (Gib 1) p (0 + Kc) < f_v (Gib 1) p (9 + Kc).
Proof.
  intros H. unfold f_v. tab. match goal with |- ?a < ?b => assert (0 < b - a) by (interval with (i_bisect p, i_taylor p, i_depth 40)); lra end.
Qed.
Lemma vb z : 50 <= z <= 292 -> 0.0018 < f_v (Gib 2) (13.918839778870 + 0.0010192970039326 * (z * z)) (572.54459862746 + z).
Proof. intros H. unfold f_v. tab. interval with (i_bisect z, i_depth 40). Qed.
Lemma v350 : f_v (Gib 1) 16.5291642526045 (350 + Kc) < 0.0018.
Proof. unfold f_v. tab. interval with (i_prec 80). Qed.

Section P.
Variable p : R.
Hypothesis H : pv_range p.
Lemma pr : if97_psat 273.15 <= p <= 100. Proof. pose proof psat_273. unfold pv_range, p_corner in H. lra. Qed.
Lemma v_order : ptR 1 OV p (hottest_liquid p - Kc) < ptR 2 OV p (coldest_vapour p - Kc).
Proof.
  pose proof pr as R. unfold hottest_liquid, coldest_vapour. destruct (Rle_dec p p_corner) as [L|L]; unfold p_corner in L.
  - destruct (tsat_below p 623.15 ltac:(lra) ltac:(lra) ltac:(pose proof psat_623; lra)) as (A & B & C).
    pose proof (at_sat p (if97_tsat p)) as G. pose proof (sat_bound1 (if97_tsat p) ltac:(lra)) as G1. pose proof (sat_bound2 (if97_tsat p) ltac:(lra)) as G2. rewrite C in G1, G2.
    pose proof psat_273. destruct (G ltac:(lra) ltac:(lra) G1 G2) as (_ & _ & _ & G3).
    change (ptR 1 OV p (if97_tsat p - Kc)) with (@pT2v_reg1 RArith p (if97_tsat p - Kc + Kc)%R). change (ptR 2 OV p (if97_tsat p - Kc)) with (@pT2v_reg2 RArith p (if97_tsat p - Kc + Kc)%R).
    replace (if97_tsat p - Kc + Kc) with (if97_tsat p) by ring. change (@pT_reg1 RArith p (if97_tsat p) OV) with (@pT2v_reg1 RArith p (if97_tsat p)) in G3. change (@pT_reg2 RArith p (if97_tsat p) OV) with (@pT2v_reg2 RArith p (if97_tsat p)) in G3. lra.
  - replace (623.15 - Kc) with 350 by (unfold Kc; lra). apply Rlt_trans with 0.0018; [|].
    + assert (W : wide1 16.5291642526045 (350 + Kc)). { pose proof psat_623. replace (350 + Kc) with 623.15 by (unfold Kc; lra). split; lra. }
      apply Rlt_trans with (ptR 1 OV 16.5291642526045 350); [apply v_decr1; [exact W|lra|lra]|].
      rewrite (a_v _ _ _ (facts1 _ _ (wide_dom _ _ _ W eq_refl))). exact v350.
    + pose proof (b23T_wide p ltac:(lra)) as W. replace (if97_b23T p) with (if97_b23T p - Kc + Kc) in W by ring.
      rewrite (a_v _ _ _ (facts2 _ _ (wide2_dom _ _ _ W eq_refl))). replace (if97_b23T p - Kc + Kc) with (if97_b23T p) by ring.
      pose proof (b23T_lo p ltac:(lra)) as A. pose proof (b23T_hi p ltac:(lra)) as B. revert A B. unfold if97_b23T. set (z := sqrt _). intros A B.
      pose proof (vb z ltac:(lra)) as V. replace (13.918839778870 + 0.0010192970039326 * (z * z)) with p in V; [exact V|].
      unfold z. rewrite sqrt_sqrt; [|apply Rcomplements.Rdiv_le_0_compat; lra]. unfold Q2R. cbn [QArith_base.Qnum QArith_base.Qden]. field.
Qed.
Lemma v_cold : ptR 2 OV p (coldest_vapour p - Kc) <= ptR 2 OV p 800.
Proof.
  pose proof (cold_wide p pr) as W2. pose proof (proj1 (proj2 W2)) as L2. replace (coldest_vapour p) with (coldest_vapour p - Kc + Kc) in W2 by ring.
  destruct (Req_dec (coldest_vapour p - Kc) 800) as [->|N]; [lra|]. left. apply v_incr2; [exact W2|unfold Kc in *; lra|unfold Kc; lra].
Qed.
Lemma pv_all v :
  (IZR (@pv_sub_region RArith p v) = 1 <-> ptR 1 OV p 0 <= v <= ptR 1 OV p (hottest_liquid p - Kc)) /\
  (IZR (@pv_sub_region RArith p v) = 2 <-> (if Rle_dec p p_corner then ptR 2 OV p (coldest_vapour p - Kc) < v else ptR 2 OV p (coldest_vapour p - Kc) <= v) /\ v <= ptR 2 OV p 800) /\
  (p <= p_corner -> ptR 1 OV p (hottest_liquid p - Kc) < v <= ptR 2 OV p (coldest_vapour p - Kc) -> IZR (@pv_sub_region RArith p v) = 4) /\
  (p <= p_corner -> IZR (@pv_sub_region RArith p v) = 4 -> ptR 1 OV p (hottest_liquid p - Kc) <= v <= ptR 2 OV p (coldest_vapour p - Kc)) /\
  (p <= p_corner \/ 22.064 < p -> (IZR (@pv_sub_region RArith p v) = 5 <-> p <= 50 /\ ptR 2 OV p 800 < v <= ptR 5 OV p 2000)) /\
  (p <= p_corner -> v < ptR 1 OV p 0 -> v < ptR 1 OV p (hottest_liquid p - Kc) -> IZR (@pv_sub_region RArith p v) = -9999).
Proof.
  pose proof pr as R. pose proof v_order as O. pose proof v_cold as O2. pose proof psat_273 as P0.
  change (ptR 1 OV p 0) with (@pT2v_reg1 RArith p (0 + Kc)%R) in *. change (ptR 2 OV p 800) with (@pT2v_reg2 RArith p (800 + Kc)%R) in *. change (ptR 5 OV p 2000) with (@Reg5.pT2v_reg5 RArith p (2000 + Kc)%R) in *.
  change (ptR 1 OV p (hottest_liquid p - Kc)) with (@pT2v_reg1 RArith p (hottest_liquid p - Kc + Kc)%R) in *.
  change (ptR 2 OV p (coldest_vapour p - Kc)) with (@pT2v_reg2 RArith p (coldest_vapour p - Kc + Kc)%R) in *.
  replace (hottest_liquid p - Kc + Kc) with (hottest_liquid p) in * by ring. replace (coldest_vapour p - Kc + Kc) with (coldest_vapour p) in * by ring.
  replace (0 + Kc) with (27315 / 100) in * by (unfold Kc; lra). replace (800 + Kc) with (107315 / 100) in * by (unfold Kc; lra). replace (2000 + Kc) with (227315 / 100) in * by (unfold Kc; lra).
  unfold pv_sub_region, P_MIN, P_MIN1, P_MIN2, P_MIN3, P_MIN5, P_MAX1, P_MAX2, P_MAX3, P_MAX5, PC_WATER. cbv zeta.
  set (f1 := @pT2v_reg1 RArith) in *. set (f2 := @Reg2.pT2v_reg2 RArith) in *. set (f5 := @Reg5.pT2v_reg5 RArith). set (f3 := @pT2v_sat_reg3 RArith) in *. set (ts := @T_saturation RArith). set (bt3 := @B23_p2T RArith).
  assert (Ets : p <= 16.5291642526045 -> ts p = if97_tsat p) by (intros; unfold ts; apply tsat_real; lra).
  assert (Ebt : 16.5291642526045 < p -> bt3 p = if97_b23T p) by (intros; unfold bt3; apply b23T_code; lra).
  clearbody f1 f2 f3 f5 ts bt3. unfold pv_range in H. revert H O O2. unfold hottest_liquid, coldest_vapour, p_corner. rnum.
  unfold Rle_b, Rlt_b. change INVALID_VALUE with (-9999)%Z. destruct (Rle_dec p 16.5291642526045) as [Lp|Lp]; intros Hp O O2.
  - specialize (Ets Lp). rewrite Ets. clear Ets Ebt. set (w1 := f1 p (if97_tsat p)) in *; set (w2 := f2 p (if97_tsat p)) in *; set (w3 := f1 p (27315 / 100)) in *; set (w4 := f2 p (107315 / 100)) in *; set (w5 := f5 p (227315 / 100)) in *; clearbody w1 w2 w3 w4 w5. tcases p; vcases; repeat split; intros; lra.
  - specialize (Ebt ltac:(lra)). rewrite Ebt. clear Ets Ebt. replace 623.15 with (62315 / 100) in * by lra. set (w1 := f1 p (62315 / 100)) in *; set (w2 := f2 p (if97_b23T p)) in *; set (w3 := f1 p (27315 / 100)) in *; set (w4 := f2 p (107315 / 100)) in *; set (w5 := f5 p (227315 / 100)) in *; set (w6 := f3 p (ts p) (0 / 10)); set (w7 := f3 p (ts p) (10 / 10)); clearbody w1 w2 w3 w4 w5 w6 w7. tcases p; vcases; repeat split; intros; lra.
Qed.
Lemma pv_or v : @pv RArith p v (from_i32 OR) = IZR (@pv_sub_region RArith p v). Proof. reflexivity. Qed.
Lemma dom1 t : 9 <= t -> t + Kc <= hottest_liquid p -> wide1 p (t + Kc).
Proof. intros A B. destruct (hot_wide p pr) as [W _]. apply (wide_iso p _ _ W). unfold Kc in *. lra. Qed.
Lemma pv_is1 v : 9 + 273.15 <= hottest_liquid p -> ptR 1 OV p 9 <= v ->
  (IZR (@pv_sub_region RArith p v) = 1 <-> exists t, 9 <= t /\ t + 273.15 <= hottest_liquid p /\ v = ptR 1 OV p t).
Proof.
  intros H9 Hv. rewrite (proj1 (pv_all v)). change 273.15 with Kc in *.
  assert (V0 : ptR 1 OV p 0 < ptR 1 OV p 9).
  { pose proof pr as R. pose proof psat_273. destruct (hot_wide p R) as [W L].
    assert (W0 : wide1 p (0 + Kc)) by (apply (wide_iso p _ _ W); unfold Kc in *; lra).
    rewrite (a_v _ _ _ (facts1 _ _ (wide_dom _ _ _ W0 eq_refl))), (a_v _ _ _ (facts1 _ _ (wide_dom _ _ _ (dom1 9 ltac:(lra) H9) eq_refl))).
    apply v9. lra. }
  split.
  - intros A. destruct (onto (fun t => ptR 1 OV p t) (fun t => ptR 1 ODVDT p t) 9 (hottest_liquid p - Kc) v) as [t [T1 T2]]; [lra| |lra|].
    + intros t Ht. apply dV_dt. apply (wide_dom p (t + Kc)); [|reflexivity]. apply dom1; lra.
    + exists t. split; [lra|]. split; [lra|auto].
  - intros (t & A & B & ->). split; [lra|]. destruct (Req_dec t (hottest_liquid p - Kc)) as [->|N]; [lra|]. left. apply v_incr1; [lra|lra|].
    replace (hottest_liquid p - Kc + Kc) with (hottest_liquid p) by ring. apply (hot_wide p pr).
Qed.
(* every state of the liquid from 9 C on is found *)
Lemma pv_finds1 t : 9 <= t -> t + 273.15 <= hottest_liquid p -> IZR (@pv_sub_region RArith p (ptR 1 OV p t)) = 1.
Proof.
  intros A B. apply pv_is1; [lra| |exists t; repeat split; lra].
  destruct A as [A| <-]; [|lra]. left. apply v_incr1; [lra|lra|]. apply dom1; [lra|exact B].
Qed.
Lemma wc t : coldest_vapour p <= t + Kc -> t <= 800 -> wide2 p (t + Kc).
Proof. intros A B. apply (wide2_iso p _ _ (cold_wide p pr)). unfold Kc in *. lra. Qed.
Lemma pv_is2 v :
  (IZR (@pv_sub_region RArith p v) = 2 <-> exists t, (if Rle_dec p p_corner then coldest_vapour p < t + 273.15 else coldest_vapour p <= t + 273.15) /\ t <= 800 /\ v = ptR 2 OV p t).
Proof.
  rewrite (proj1 (proj2 (pv_all v))). change 273.15 with Kc. pose proof (cold_wide p pr) as W. pose proof (proj1 (proj2 W)) as L. split.
  - intros A. destruct (onto (fun t => ptR 2 OV p t) (fun t => ptR 2 ODVDT p t) (coldest_vapour p - Kc) 800 v) as [t [T1 T2]]; [unfold Kc; lra| |destruct (Rle_dec p p_corner); lra|].
    + intros t Ht. apply dV_dt. apply (wide2_dom p (t + Kc)); [|reflexivity]. apply wc; lra.
    + exists t. split; [|split; [lra|auto]]. destruct (Rle_dec p p_corner); [|lra]. destruct (proj1 T1) as [E|E]; [lra|]. subst t. lra.
  - intros (t & A & B & ->). assert (A' : coldest_vapour p <= t + Kc) by (destruct (Rle_dec p p_corner); lra).
    assert (B' : ptR 2 OV p t <= ptR 2 OV p 800). { destruct B as [B| ->]; [|lra]. left. apply v_incr2; [apply wc; lra|exact B|unfold Kc; lra]. }
    split; [|exact B']. replace (coldest_vapour p) with (coldest_vapour p - Kc + Kc) in W by ring.
    assert (S : coldest_vapour p < t + Kc -> ptR 2 OV p (coldest_vapour p - Kc) < ptR 2 OV p t) by (intros; apply v_incr2; [exact W|lra|unfold Kc; lra]).
    destruct (Rle_dec p p_corner) as [Q|Q]; [exact (S A)|]. destruct A as [A|A]; [left; exact (S A)|]. right. f_equal. lra.
Qed.
Lemma pv_is5 v : p <= p_corner \/ 22.064 < p -> ptR 2 OV p 800 < v -> ptR 5 OV p 800 < v ->
  (IZR (@pv_sub_region RArith p v) = 5 <-> p <= 50 /\ exists t, 800 < t <= 2000 /\ v = ptR 5 OV p t).
Proof.
  intros Hq V1 V2. rewrite (proj1 (proj2 (proj2 (proj2 (proj2 (pv_all v))))) Hq). pose proof pr as R. pose proof psat_273. split.
  - intros (A & _ & B). split; [exact A|]. destruct (onto (fun t => ptR 5 OV p t) (fun t => ptR 5 ODVDT p t) 800 2000 v) as [t [T1 T2]]; [lra| |lra|].
    + intros t Ht. apply (dV_dt 5 p t). apply dom5_gas. unfold hot_gas. lra.
    + exists t. split; [|auto]. destruct (proj1 T1) as [E|E]; [lra|]. subst t. lra.
  - intros (A & t & B & ->). split; [exact A|]. split; [exact V1|]. destruct (proj2 B) as [E| ->]; [|lra]. left. apply v_incr5; unfold hot_gas; lra.
Qed.
End P.
(* cold water: up to 5 MPa the volume at 4 C is less than at 0 C, and pv finds no region *)
Lemma v4 p : 0 <= p <= 5 -> f_v (Gib 1) p (4 + Kc) < f_v (Gib 1) p (0 + Kc).
Proof.
  intros H. unfold f_v. tab. match goal with |- ?a < ?b => assert (0 < b - a) by (interval with (i_bisect p, i_taylor p, i_depth 40)); lra end.
Qed.
Lemma psat_20 : if97_psat (20 + Kc) < 0.01.
Proof. unfold if97_psat, Kc. cbv zeta. interval with (i_prec 100). Qed.
Lemma wide_ex p t : 0.01 <= p <= 100 -> 0 <= t <= 20 -> wide1 p (t + Kc).
Proof.
  intros Hp H. split; [unfold Kc; lra|]. assert (A : if97_psat (t + Kc) <= if97_psat (20 + Kc)).
  { destruct (Req_dec t 20) as [->|N]; [lra|]. left. apply psat_mono; unfold Kc; lra. }
  pose proof psat_20. lra.
Qed.
Lemma hot_ex p : 0.01 <= p <= p_corner -> 20 + Kc <= hottest_liquid p.
Proof.
  intros H. unfold hottest_liquid, p_corner in *. pose proof psat_20. destruct (Rle_dec _ _); [|lra]. apply (tsat_above p (20 + Kc)); unfold Kc in *; lra.
Qed.
Lemma range_ex p : 0.01 <= p <= p_corner -> pv_range p. Proof. left. lra. Qed.
Lemma cold_water p : 0.01 <= p <= 5 -> liquid p 4 /\ @pv RArith p (ptR 1 OV p 4) (from_i32 OR) = -9999.
Proof.
  intros Hp. pose proof psat_20 as Q. assert (Q4 : if97_psat (4 + Kc) < if97_psat (20 + Kc)) by (apply psat_mono; unfold Kc; lra).
  split. { unfold liquid. change (4 + 273.15) with (4 + Kc). lra. }
  assert (Hr : 0.01 <= p <= p_corner) by (unfold p_corner; lra).
  rewrite pv_or. apply (pv_all p (range_ex p Hr) (ptR 1 OV p 4)); [lra| |].
  - rewrite (a_v _ _ _ (facts1 _ _ (wide_dom _ _ _ (wide_ex p 4 ltac:(lra) ltac:(lra)) eq_refl))), (a_v _ _ _ (facts1 _ _ (wide_dom _ _ _ (wide_ex p 0 ltac:(lra) ltac:(lra)) eq_refl))). apply v4. lra.
  - pose proof (hot_ex p Hr) as L. destruct (hot_wide p (pr p (range_ex p Hr))) as [W _]. replace (hottest_liquid p) with (hottest_liquid p - Kc + Kc) in W by ring.
    apply Rlt_trans with (ptR 1 OV p 9).
    + apply Rlt_trans with (ptR 1 OV p 0); rewrite (a_v _ _ _ (facts1 _ _ (wide_dom _ _ _ (wide_ex p 0 ltac:(lra) ltac:(lra)) eq_refl))).
      * rewrite (a_v _ _ _ (facts1 _ _ (wide_dom _ _ _ (wide_ex p 4 ltac:(lra) ltac:(lra)) eq_refl))). apply v4. lra.
      * rewrite (a_v _ _ _ (facts1 _ _ (wide_dom _ _ _ (wide_ex p 9 ltac:(lra) ltac:(lra)) eq_refl))). apply v9. lra.
    + apply v_incr1; [lra|unfold Kc in *; lra|exact W].
Qed.

(* the statements of the property file *)
Lemma tv_some fuel t v (r : Z) : tv_region fuel t v = Some (IZR r) <-> IZR (@tv_sub_region RArith t v) = IZR r.
Proof. unfold tv_region. rewrite tv_or. split; [intros E; injection E; auto|intros ->; reflexivity]. Qed.
Lemma th_some fuel t v (r : Z) : th_region fuel t v = Some (IZR r) <-> @th_sub_region RArith fuel t v = Some r.
Proof.
  unfold th_region. rewrite th_or. destruct (@th_sub_region RArith fuel t v) as [z|]; cbn; [|split; discriminate].
  split; [intros E; injection E; intros F; apply eq_IZR in F; now subst|intros E; injection E as ->; reflexivity].
Qed.
Lemma tv1 fuel t v : 0 <= t <= 350 -> (tv_region fuel t v = Some 1 <-> exists p, if97_psat (t + 273.15) < p < 100 /\ v = ptR 1 OV p t).
Proof. intros H. rewrite (tv_some fuel t v 1). exact (tv_is1 t H v). Qed.
Lemma tv2 fuel t v : 0 <= t <= 350 -> (tv_region fuel t v = Some 2 <-> exists p, 1e-8 < p < if97_psat (t + 273.15) /\ v = ptR 2 OV p t).
Proof. intros H. rewrite (tv_some fuel t v 2). exact (tv_is2 t H v). Qed.
Lemma tv4 fuel t v : 0 <= t <= 350 -> let ps := if97_psat (t + 273.15) in
  (tv_region fuel t v = Some 4 <-> ptR 1 OV ps t <= v <= ptR 2 OV ps t) /\
  (tv_region fuel t v = Some (-9999) <-> v <= ptR 1 OV 100 t \/ ptR 2 OV 1e-8 t <= v).
Proof. intros H ps. rewrite (tv_some fuel t v 4), (tv_some fuel t v (-9999)). exact (proj2 (proj2 (low_all t H v))). Qed.
Lemma tv_edge fuel t : 0 <= t <= 350 -> liquid 100 t /\ tv_region fuel t (ptR 1 OV 100 t) = Some (-9999).
Proof.
  intros H. split; [|apply (proj2 (tv4 fuel t _ H)); left; lra]. unfold liquid. pose proof (ps_range t H). unfold Kc in *.
  replace (t + 27315 / 100) with (t + 273.15) in * by lra. lra.
Qed.
Lemma tv2m fuel t v : 350 < t <= 590 -> if97_b23 (t + 273.15) <= 100 -> (tv_region fuel t v = Some 2 <-> exists p, 1e-8 < p <= if97_b23 (t + 273.15) /\ v = ptR 2 OV p t).
Proof. intros H Hb. rewrite (tv_some fuel t v 2). exact (tv_is2m t H Hb v). Qed.
Lemma tv5 fuel t v : 800 < t <= 2000 -> (tv_region fuel t v = Some 5 <-> exists p, 0.000611212677444 <= p <= 50 /\ v = ptR 5 OV p t).
Proof. intros H. rewrite (tv_some fuel t v 5). exact (tv_is5 t H v). Qed.
Lemma th2 fuel t h : 0 <= t <= 350 -> (th_region fuel t h = Some 2 <-> exists p, 1e-8 < p < if97_psat (t + 273.15) /\ h = ptR 2 OH p t).
Proof. intros H. rewrite (th_some fuel t h 2). exact (th_is2 t H fuel h). Qed.
Lemma th2m fuel t h : 350 < t <= 590 -> if97_b23 (t + 273.15) <= 100 -> (th_region fuel t h = Some 2 <-> exists p, 1e-8 < p <= if97_b23 (t + 273.15) /\ h = ptR 2 OH p t).
Proof. intros H Hb. rewrite (th_some fuel t h 2). exact (th_is2m t H Hb fuel h). Qed.
Lemma th5 fuel t h : 800 < t <= 2000 -> (th_region fuel t h = Some 5 <-> exists p, 0.000611212677444 <= p <= 50 /\ h = ptR 5 OH p t).
Proof. intros H. rewrite (th_some fuel t h 5). exact (th_is5 t H fuel h). Qed.
Lemma ts4 t s : 0 <= t <= 350 -> s_range s -> let ps := if97_psat (t + 273.15) in (ts_region t s = 4 <-> ptR 1 OS ps t <= s <= ptR 2 OS ps t).
Proof. intros H Hs ps. exact (proj2 (proj2 (s_low_all t H s Hs))). Qed.
Lemma pv4 p v : pv_range p -> p <= p_corner -> let T := if97_tsat p in
  (ptR 1 OV p (T - 273.15) < v <= ptR 2 OV p (T - 273.15) -> pv_region p v = 4) /\
  (pv_region p v = 4 -> ptR 1 OV p (T - 273.15) <= v <= ptR 2 OV p (T - 273.15)).
Proof.
  intros H L T. destruct (pv_all p H v) as (_ & _ & A & B & _). specialize (A L). specialize (B L). revert A B. unfold hottest_liquid, coldest_vapour.
  destruct (Rle_dec p p_corner); [|lra]. intros A B. split; [exact A|exact B].
Qed.
Lemma rise_ex : (0 < 5 <= 350) /\ (350 < 400 <= 590 /\ if97_b23 (400 + 273.15) <= 100) /\ s_range 1 /\ pv_range 1 /\ pv_range 25 /\ 9 + 273.15 <= hottest_liquid 1 /\ 9 + 273.15 <= hottest_liquid 25.
Proof.
  assert (A : 9 + 273.15 <= hottest_liquid 1). { pose proof (hot_ex 1 ltac:(unfold p_corner; lra)). unfold Kc in *. lra. }
  assert (B : 9 + 273.15 <= hottest_liquid 25). { unfold hottest_liquid, p_corner. destruct (Rle_dec _ _); lra. }
  unfold if97_b23, s_range, pv_range, p_corner. repeat split; try lra; try exact A; try exact B; nra.
Qed.
(* between the saturation pressure of 0 C and 0.000611213 MPa liquid water is called vapour *)
Lemma vt1 p : 0.0006 <= p <= 0.0007 -> 0 < f_v (Gib 1) p (0 + Kc) < 0.01.
Proof. intros H. unfold f_v. tab. split; interval. Qed.
Lemma vt2 p : 0.0006 <= p <= 0.0007 -> 0.01 < f_v (Gib 2) p (800 + Kc).
Proof. intros H. unfold f_v. tab. interval. Qed.
Lemma triple_water p : if97_psat 273.15 <= p <= 0.000611213 -> liquid p 0 /\ pv_region p (ptR 1 OV p 0) = 2.
Proof.
  intros Hp. pose proof psat_273 as P0. split.
  { unfold liquid. split; [lra|]. replace (0 + 273.15) with 273.15 by lra. lra. }
  assert (W1 : wide1 p (0 + Kc)). { replace (0 + Kc) with 273.15 by (unfold Kc; lra). split; lra. }
  assert (V1 : 0 < ptR 1 OV p 0 < 0.01). { rewrite (a_v _ _ _ (facts1 _ _ (wide_dom _ _ _ W1 eq_refl))). apply vt1. lra. }
  assert (V2 : 0.01 < ptR 2 OV p 800). { rewrite (a_v _ _ _ (facts2 p 800 (wide2_dom _ _ _ (vap_wide _ _ (vap800 p ltac:(lra))) eq_refl))). apply vt2. lra. }
  unfold pv_region. rewrite pv_or. set (v := ptR 1 OV p 0) in *. change (ptR 2 OV p 800) with (@pT2v_reg2 RArith p (800 + Kc)%R) in V2.
  replace (800 + Kc) with (107315 / 100) in V2 by (unfold Kc; lra).
  unfold pv_sub_region, P_MIN, P_MIN1, P_MIN2, P_MIN3, P_MIN5, P_MAX1, P_MAX2, P_MAX3, P_MAX5, PC_WATER. cbv zeta.
  set (f1 := @pT2v_reg1 RArith) in *. set (f2 := @Reg2.pT2v_reg2 RArith) in *. set (f5 := @Reg5.pT2v_reg5 RArith). set (f3 := @pT2v_sat_reg3 RArith) in *. set (ts := @T_saturation RArith). set (bt3 := @B23_p2T RArith).
  clearbody f1 f2 f3 f5 ts bt3 v. rnum. unfold Rle_b, Rlt_b. tcases p; vcases; reflexivity.
Qed.
Lemma ts1 t s : 5 <= t <= 350 -> s_range s -> (ts_region t s = 1 <-> exists p, if97_psat (t + 273.15) < p < 100 /\ s = ptR 1 OS p t).
Proof. intros H. exact (ts_is1 t ltac:(lra) s ltac:(lra)). Qed.
Lemma v_rises p t1 t2 : t1 < t2 ->
  (5 <= t1 -> liquid p t2 -> ptR 1 OV p t1 < ptR 1 OV p t2) /\
  (vapour p t1 -> t2 <= 800 -> ptR 2 OV p t1 < ptR 2 OV p t2) /\
  (hot_gas p t1 -> hot_gas p t2 -> ptR 5 OV p t1 < ptR 5 OV p t2).
Proof.
  intros L. split; [|split].
  - intros A B. apply v_incr1; [exact A|exact L|exact (liq_wide _ _ B)].
  - intros A B. apply v_incr2; [exact (vap_wide _ _ A)|exact L|unfold Kc; lra].
  - intros A B. apply v_incr5; assumption.
Qed.
Lemma sh_fall t p1 p2 : 0 < p1 -> p1 < p2 ->
  (5 <= t -> liquid p1 t -> p2 <= 100 -> ptR 1 OS p2 t < ptR 1 OS p1 t) /\
  (vapour p2 t -> ptR 2 OS p2 t < ptR 2 OS p1 t /\ ptR 2 OH p2 t < ptR 2 OH p1 t) /\
  (hot_gas p2 t -> ptR 5 OS p2 t < ptR 5 OS p1 t /\ ptR 5 OH p2 t < ptR 5 OH p1 t).
Proof.
  intros A L. split; [|split].
  - intros T W H. apply s_decr1; [exact T|exact (liq_wide _ _ W)|exact L|exact H].
  - intros V. pose proof (vap_wide _ _ V). split; [apply s_decr2|apply h_decr2]; assumption.
  - intros V. split; [apply s_decr5|apply h_decr5]; assumption.
Qed.
Lemma edge_w : exists p t, liquid p t /\ forall fuel, tv_region fuel t (ptR 1 OV p t) = Some (-9999).
Proof. exists 100, 20. split; [exact (proj1 (tv_edge 1 20 ltac:(lra)))|intros fuel; exact (proj2 (tv_edge fuel 20 ltac:(lra)))]. Qed.
Lemma cold_w : exists p t, liquid p t /\ pv_region p (ptR 1 OV p t) = -9999.
Proof. exists 1, 4. exact (cold_water 1 ltac:(lra)). Qed.
Lemma triple_w : exists p t, liquid p t /\ pv_region p (ptR 1 OV p t) = 2.
Proof. exists 0.000611213, 0. pose proof psat_273. exact (triple_water 0.000611213 ltac:(lra)). Qed.
Lemma wet_w : exists p t, liquid p t /\ ts_region t (ptR 1 OS p t) = 4.
Proof. exists 1, 1. exact (cold_wet 1 ltac:(lra)). Qed.
Lemma psat_100 : if97_psat (100 + 273.15) < 0.2 /\ 1.2 < if97_psat (200 + 273.15).
Proof. unfold if97_psat. cbv zeta. split; interval with (i_prec 100). Qed.
Lemma state_ex : liquid 1 100 /\ 5 <= 100 /\ vapour 1 200 /\ hot_gas 1 1000 /\ (0.01 <= 1 <= 5) /\
  (exists v, ptR 2 OV 1 800 < v /\ ptR 5 OV 1 800 < v) /\ ptR 1 OV 1 9 <= ptR 1 OV 1 20.
Proof.
  pose proof psat_100. unfold liquid, vapour, hot_gas. repeat split; try lra; try (intros; lra).
  - exists (Rmax (ptR 2 OV 1 800) (ptR 5 OV 1 800) + 1). pose proof (Rmax_l (ptR 2 OV 1 800) (ptR 5 OV 1 800)). pose proof (Rmax_r (ptR 2 OV 1 800) (ptR 5 OV 1 800)). lra.
  - left. apply v_incr1; [lra|lra|]. apply wide_ex; lra.
Qed.
