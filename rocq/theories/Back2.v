(* Region 2: the region maps of ph and ps and the backward equations T(p,h) and T(p,s). *)
From Coq Require Import ZArith Reals List Bool Lra Lia.
From Coquelicot Require Rcomplements.
From Interval Require Import Tactic.
From Verif Require Import RegionMap SatFloat SpecSub3 Num RealInst Constant R4Sat Reg1 Reg2 Boundaries Reg2Back Region Api Spec SpecReal SatInv Sub3 RealSat SatApi RSums Gibbs GibbsModel
  SpecThermo ThermoApi FloatErr FloatUp Steps Taylor TaylorSum Enc1 Enc2 Bound1 Tree1 Tree1b Bound2 Tree2 Tree2pha Tree2phb Tree2psa Tree2psb SpecStable SpecSteam Stab1 Stab2.
Import ListNotations.
Open Scope R_scope.

(* ---- region 1 lies below ---- *)
Lemma h1_lt p T : wide1 p T -> @pT2h_reg1 RArith p T < 1800.
Proof.
  intros W. replace T with (T - Kc + Kc) in * by ring. set (t := T - Kc) in *. destruct (wide_in _ _ W) as [A B]. pose proof (h1_below _ _ A B) as H.
  pose proof (proj1 (h_eta p t W)) as E. unfold eta25 in E. unfold h1v in H. change (@pT2h_reg1 RArith p (t + Kc)%R) with (ptR 1 OH p t). lra.
Qed.
Lemma s1_lt p T : wide1 p T -> @pT2s_reg1 RArith p T < 4.2.
Proof.
  intros W. replace T with (T - Kc + Kc) in * by ring. set (t := T - Kc) in *. destruct (wide_in _ _ W) as [A B]. pose proof (s1_below _ _ A B) as H.
  pose proof (proj1 (s_sig p t W)) as E. unfold sig2 in E. unfold s1v in H. change (@pT2s_reg1 RArith p (t + Kc)%R) with (ptR 1 OS p t). lra.
Qed.

(* ---- the lowest temperature on an isobar ---- *)
Lemma b23T_code p : 16.5 <= p -> @B23_p2T RArith p = if97_b23T p.
Proof. intros H. rewrite b23p2T_real by lra. reflexivity. Qed.
Lemma psat_near : 16.529164252 < if97_psat 623.149999998.
Proof. unfold if97_psat. cbv zeta. interval with (i_prec 90). Qed.
Lemma b23T_e0 : 623.149999998 <= 572.54459862746 + sqrt ((16.5291642526045 - 13.918839778870) / 0.0010192970039326). Proof. interval with (i_prec 90). Qed.
Lemma b23T_e1 : 572.54459862746 + sqrt ((100 - 13.918839778870) / 0.0010192970039326) <= 864. Proof. interval with (i_prec 90). Qed.
Lemma b23T_e2 : if97_b23 623.15 <= 16.52916425263. Proof. unfold if97_b23. interval with (i_prec 90). Qed.
Lemma b23T_lo p : 16.5291642526045 <= p -> 623.149999998 <= if97_b23T p.
Proof.
  intros H. unfold if97_b23T. apply Rle_trans with (572.54459862746 + sqrt ((16.5291642526045 - 13.918839778870) / 0.0010192970039326)); [exact b23T_e0|].
  apply Rplus_le_compat_l. apply sqrt_le_1_alt. lra.
Qed.
Lemma b23T_hi p : 16.5291642526045 <= p <= 100 -> if97_b23T p <= 864.
Proof.
  intros H. unfold if97_b23T. apply Rle_trans with (572.54459862746 + sqrt ((100 - 13.918839778870) / 0.0010192970039326)); [|exact b23T_e1].
  apply Rplus_le_compat_l. apply sqrt_le_1_alt. lra.
Qed.
Lemma b23T_back p : 16.5 <= p <= 100 -> Rabs (if97_b23 (if97_b23T p) - p) <= 2.3e-11.
Proof. intros H. pose proof (b23_pTp p H) as B. rewrite b23_real, b23T_code in B by lra. exact B. Qed.
Lemma b23T_wide p : 16.5291642526045 < p <= 100 -> wide2 p (if97_b23T p).
Proof.
  intros H. pose proof (b23T_lo p ltac:(lra)) as L. pose proof (b23T_hi p ltac:(lra)) as U. pose proof (b23T_back p ltac:(lra)) as B.
  apply Rcomplements.Rabs_le_between in B. split; [lra|]. split; [lra|]. split; intros E.
  - assert (if97_psat 623.149999998 <= if97_psat (if97_b23T p)) by (destruct (Req_dec 623.149999998 (if97_b23T p)) as [<-|N]; [lra|left; apply psat_mono; lra]).
    assert (if97_b23 (if97_b23T p) <= if97_b23 623.15) by (apply b23_incr; lra). pose proof psat_near.
    pose proof b23T_e2. lra.
  - lra.
Qed.
Lemma tsat_below p T : if97_psat 273.15 <= p <= 16.5291642526045 -> 273.15 <= T -> (T <= 623.15 -> p <= if97_psat T) ->
  273.15 <= if97_tsat p <= 623.15 /\ if97_tsat p <= T /\ if97_psat (if97_tsat p) = p.
Proof.
  intros Hp HT H. pose proof psat_623. pose proof psat_647. destruct (psat_tsat p ltac:(lra)) as [A B].
  assert (U : if97_tsat p <= 623.15).
  { destruct (Rle_lt_dec (if97_tsat p) 623.15) as [L|L]; [exact L|]. assert (if97_psat 623.15 < if97_psat (if97_tsat p)) by (apply psat_mono; lra). lra. }
  split; [lra|]. split; [|exact B].
  destruct (Rle_lt_dec (if97_tsat p) T) as [L|L]; [exact L|]. assert (if97_psat T < if97_psat (if97_tsat p)) by (apply psat_mono; lra). specialize (H ltac:(lra)). lra.
Qed.
Lemma tsat_wide p : if97_psat 273.15 <= p <= 16.5291642526045 -> wide2 p (if97_tsat p) /\ wide1 p (if97_tsat p).
Proof.
  intros Hp. pose proof psat_623. destruct (tsat_below p 623.15 Hp ltac:(lra) ltac:(lra)) as (A & _ & B). pose proof psat_273.
  split; [split; [lra|split; [lra|split; intros; [rewrite B; lra|lra]]]|split; [lra|rewrite B; lra]].
Qed.
Lemma low_wide p : 16.5291642526045 < p <= 100 -> wide1 p 623.15.
Proof. intros H. pose proof psat_623. split; lra. Qed.

Lemma sub2 (f : R -> R -> R) (p t : R) : vapour p t -> beyond23 p t -> if97_psat 273.15 <= p ->
  (forall t1 t2, wide2 p (t1 + Kc) -> t1 < t2 -> t2 + Kc <= 1073.15 -> f p (t1 + Kc) < f p (t2 + Kc)) ->
  f p (t + Kc) <= f p (107315 / 100) /\ (p <= 16.5291642526045 -> f p (if97_tsat p) <= f p (t + Kc)) /\ (16.5291642526045 < p -> f p (if97_b23T p) <= f p (t + Kc)).
Proof.
  intros V B S M. pose proof (vap_wide _ _ V) as W.
  assert (Mo : forall a b, a <= b -> b <= 1073.15 -> wide2 p a -> f p a <= f p b).
  { intros a b A C Wa. destruct (Req_dec a b) as [->|E]; [lra|]. left. replace a with (a - Kc + Kc) by ring. replace b with (b - Kc + Kc) by ring.
    apply M; [|lra|]; replace (a - Kc + Kc) with a by ring; replace (b - Kc + Kc) with b by ring; [exact Wa|exact C]. }
  pose proof (proj1 (proj2 W)). destruct V as (V1 & V2 & V3 & V4). split; [|split].
  - apply Mo; [lra|lra|exact W].
  - intros L. destruct (tsat_below p (t + Kc) ltac:(lra) ltac:(lra)) as (Q1 & Q2 & Q3); [intros E; apply V3; unfold Kc in E; lra|].
    apply Mo; [exact Q2|lra|]. apply tsat_wide. lra.
  - intros L. specialize (B L). apply Mo; [exact B|lra|]. apply b23T_wide. lra.
Qed.

Section Big.
Variables p t : R.
Hypothesis W : wide2 p (t + Kc).
Hypothesis Lp : val al0 <= p.
Let z := wy (t + Kc).
Let I := proj1 (wide2_in _ _ W).
Let G := proj2 (wide2_in _ _ W).
Let Tp : yT z = t + Kc. Proof. apply yT_wy. pose proof (proj1 (proj2 W)). lra. Qed.
Let v4 : val al1 = 4. Proof. unfold al1. flv. lra. Qed.
Let v100 : val ax1 = 100. Proof. unfold ax1. flv. lra. Qed.
Let Hx : p <= 100. Proof. pose proof (proj1 W). lra. Qed.
Let q := sqrt (sqrt p).
Let q4 : q * q * (q * q) = p.
Proof. pose proof (proj1 W). unfold q. rewrite sqrt_sqrt by apply sqrt_pos. apply sqrt_sqrt. lra. Qed.
Let q_pos : 0 < q. Proof. pose proof (proj1 W). apply sqrt_lt_R0, sqrt_lt_R0. lra. Qed.
Let Q0 : p <= 4 -> val aq0 <= q <= val aq1.
Proof.
  intros H. revert Lp. unfold aq0, aq1, al0. flv. intros L. split.
  - apply Rsqr_incr_0_var; [|lra]. apply Rsqr_incr_0_var; [|apply Rle_0_sqr]. unfold Rsqr. rewrite q4. lra.
  - apply Rsqr_incr_0_var; [|lra]. apply Rsqr_incr_0_var; [|apply Rle_0_sqr]. unfold Rsqr. rewrite q4. lra.
Qed.
Lemma h2_big : 2100 < ptR 2 OH p t.
Proof.
  rewrite (h_f2 p t W). fold z. destruct (Rle_lt_dec p 4) as [L|L].
  - apply cov_pha; [lra|exact (proj2 I)|exact G].
  - apply cov_phb; [lra|exact (proj2 I)|exact G].
Qed.
Lemma s2_big : 4.5 < ptR 2 OS p t.
Proof.
  rewrite (s_f2 p t W). fold z. destruct (Rle_lt_dec p 4) as [L|L].
  - rewrite <- q4. apply cov_psa; [exact (Q0 L)|exact (proj2 I)|exact q_pos|rewrite q4; exact G].
  - apply cov_psb; [lra|exact (proj2 I)|exact G].
Qed.
End Big.

(* ---- region maps ---- *)
Lemma al0_min p : if97_psat 273.15 <= p -> val al0 <= p.
Proof. pose proof psat_273. unfold al0. flv. lra. Qed.
Ltac map2 := match goal with |- (if ?c then _ else _) = _ => first [ift|iff] end.
Lemma ph_map2 p t : vapour p t -> beyond23 p t -> if97_psat 273.15 <= p -> @ph_sub_region RArith p (ptR 2 OH p t) = 2%Z.
Proof.
  intros V B S. pose proof (vap_wide _ _ V) as W. pose proof (h2_big p t W (al0_min _ S)) as Big. pose proof psat_273 as P0. pose proof (proj1 W) as Hp.
  destruct (sub2 (fun p T => @pT2h_reg2 RArith p T) p t V B S) as (L0 & L1 & L2).
  { intros t1 t2 A C D. exact (h_incr2 p t1 t2 A C D). }
  pose proof (fun H => h1_lt p _ (proj2 (tsat_wide p H))) as K1. pose proof (fun H => h1_lt p _ (low_wide p H)) as K2. replace 623.15 with (62315 / 100) in K2 by lra.
  cbv beta in L0, L1, L2. change (@pT2h_reg2 RArith p (t + Kc)%R) with (ptR 2 OH p t) in *. set (h := ptR 2 OH p t) in *.
  unfold ph_sub_region, P_MIN, Ps_623, PC_WATER. cbv zeta. set (f1 := @pT2h_reg1 RArith) in *. set (f2 := @Reg2.pT2h_reg2 RArith) in *. set (f5 := @Reg5.pT2h_reg5 RArith).
  set (ts := @T_saturation RArith). set (bt3 := @B23_p2T RArith). rnum.
  destruct (Rle_lt_dec p 16.5291642526045) as [Lp|Lp].
  - ift. unfold ts. rewrite tsat_real by lra. specialize (L1 Lp). specialize (K1 ltac:(lra)). iff. iff. ift. reflexivity.
  - iff. specialize (L2 Lp). specialize (K2 ltac:(lra)). unfold bt3. rewrite b23T_code by lra. destruct (Rlt_le_dec p 22.064) as [Lq|Lq].
    + ift. iff. iff. ift. reflexivity.
    + iff. ift. iff. iff. ift. reflexivity.
Qed.
Lemma ps_map2 p t : vapour p t -> beyond23 p t -> if97_psat 273.15 <= p -> @ps_sub_region RArith p (ptR 2 OS p t) = 2%Z.
Proof.
  intros V B S. pose proof (vap_wide _ _ V) as W. pose proof (s2_big p t W (al0_min _ S)) as Big. pose proof psat_273 as P0. pose proof (proj1 W) as Hp.
  destruct (sub2 (fun p T => @pT2s_reg2 RArith p T) p t V B S) as (L0 & L1 & L2).
  { intros t1 t2 A C D. exact (s_incr2 p t1 t2 A C D). }
  pose proof (fun H => s1_lt p _ (proj2 (tsat_wide p H))) as K1. pose proof (fun H => s1_lt p _ (low_wide p H)) as K2. replace 623.15 with (62315 / 100) in K2 by lra.
  cbv beta in L0, L1, L2. change (@pT2s_reg2 RArith p (t + Kc)%R) with (ptR 2 OS p t) in *. set (s := ptR 2 OS p t) in *.
  unfold ps_sub_region, P_MIN, Ps_623, PC_WATER. cbv zeta. set (f1 := @pT2s_reg1 RArith) in *. set (f2 := @Reg2.pT2s_reg2 RArith) in *. set (f5 := @Reg5.pT2s_reg5 RArith).
  set (ts := @T_saturation RArith). set (bt3 := @B23_p2T RArith). rnum.
  destruct (Rle_lt_dec p 16.5291642526045) as [Lp|Lp].
  - ift. unfold ts. rewrite tsat_real by lra. specialize (L1 Lp). specialize (K1 ltac:(lra)). iff. iff. ift. reflexivity.
  - iff. specialize (L2 Lp). specialize (K2 ltac:(lra)). unfold bt3. rewrite b23T_code by lra. destruct (Rlt_le_dec p 22.064) as [Lq|Lq].
    + ift. iff. iff. ift. reflexivity.
    + iff. ift. iff. iff. ift. reflexivity.
Qed.

(* ---- backward equations ---- *)
Lemma Rpower_quarter q i : 0 < q -> Rpower (q * q * (q * q)) (IZR i / 4) = powerRZ q i.
Proof.
  intros H. rewrite powerRZ_Rpower by exact H. unfold Rpower. f_equal. rewrite !ln_mult by (try apply Rmult_lt_0_compat; assumption). field.
Qed.
Definition qrow (a : R * Z * R) (b : Z * Z * R) : Prop := fst (fst a) = IZR (fst (fst b)) / 4 /\ snd (fst a) = snd (fst b) /\ snd a = snd b.
Lemma psa_sum q s : 0 < q -> forall l m, List.Forall2 qrow l m -> forall a,
  fold_left (fun theta (k : R * Z * R) => theta + snd k * R_powf (q * q * (q * q)) (fst (fst k)) * powerRZ s (snd (fst k))) l a = a + P m q s.
Proof.
  intros H l m F. induction F as [|x y l m (E1 & E2 & E3) F IH]; intros a.
  - cbn. unfold P. cbn. ring.
  - cbn [fold_left]. rewrite IH. rewrite E1, E2, E3. unfold R_powf. destruct (Rlt_dec 0 (q * q * (q * q))) as [L|L].
    2: { exfalso. apply L. repeat apply Rmult_lt_0_compat; exact H. }
    rewrite Rpower_quarter by exact H. destruct y as [[i j] n]. cbn [fst snd]. 
    unfold P. rewrite tsum_cons. cbn [fst snd]. ring.
Qed.
Lemma psa_rows : List.Forall2 qrow (@ps2T_reg2a_IJn RArith) (map rrow tpsa).
Proof.
  unfold ps2T_reg2a_IJn, tpsa. cbn [map].
  repeat (apply List.Forall2_cons; [split; [|split]; [|reflexivity|reflexivity]; cbn [fst snd rrow]; rnum; lra|]). apply List.Forall2_nil.
Qed.
Section Back.
Variables p t : R.
Hypothesis W : wide2 p (t + Kc).
Hypothesis Lp : val al0 <= p.
Let z := wy (t + Kc).
Let I := proj1 (wide2_in _ _ W).
Let G := proj2 (wide2_in _ _ W).
Let Tp : yT z = t + Kc. Proof. apply yT_wy. pose proof (proj1 (proj2 W)). lra. Qed.
Let v4 : val al1 = 4. Proof. unfold al1. flv. lra. Qed.
Let v100 : val ax1 = 100. Proof. unfold ax1. flv. lra. Qed.
Let Hx : p <= 100. Proof. pose proof (proj1 W). lra. Qed.
Let Ep : p / (10 / 10) = p. Proof. field. Qed.
Lemma pha_eq : @ph2T_reg2a RArith p (ptR 2 OH p t) - (t + Kc) = gpha p z.
Proof.
  rewrite (h_f2 p t W). fold z. rewrite <- Tp. unfold ph2T_reg2a, gpha, hv. cbv zeta. rewrite poly_powi_P. change (@ph2T_reg2a_IJn RArith) with (map rrow tpha).
  generalize (vH p z). intros v. rnum. rewrite Ep. 
  replace (24922404 / 100000 * v / (20000 / 10) - 21 / 10) with (12461202 / 100000000 * v + -21 / 10) by field. field.
Qed.
Lemma phb_eq : @ph2T_reg2b RArith p (ptR 2 OH p t) - (t + Kc) = gphb p z.
Proof.
  rewrite (h_f2 p t W). fold z. rewrite <- Tp. unfold ph2T_reg2b, gphb, hv. cbv zeta. rewrite s_P by vis. change (@ph2T_reg2b_IJn RArith) with (map rrow tphb).
  generalize (vH p z). intros v. rnum. rewrite Ep. 
  replace (24922404 / 100000 * v / (20000 / 10) - 26 / 10) with (12461202 / 100000000 * v + -26 / 10) by field.
  replace (p - 20 / 10) with (1 / 1 * p + -2 / 1) by field. field.
Qed.
Lemma phc_eq : @ph2T_reg2c RArith p (ptR 2 OH p t) - (t + Kc) = gphc p z.
Proof.
  rewrite (h_f2 p t W). fold z. rewrite <- Tp. unfold ph2T_reg2c, gphc, hv. cbv zeta. rewrite poly_powi_P. change (@ph2T_reg2c_IJn RArith) with (map rrow tphc).
  generalize (vH p z). intros v. rnum. rewrite Ep. 
  replace (24922404 / 100000 * v / (20000 / 10) - 18 / 10) with (12461202 / 100000000 * v + -18 / 10) by field.
  replace (p + 250 / 10) with (1 / 1 * p + 25 / 1) by field. field.
Qed.
Lemma psb_eq : @ps2T_reg2b RArith p (ptR 2 OS p t) - (t + Kc) = gpsb p z.
Proof.
  rewrite (s_f2 p t W). fold z. rewrite <- Tp. unfold ps2T_reg2b, gpsb, sv. cbv zeta. rewrite s_P by vis. change (@ps2T_reg2b_IJn RArith) with (map rrow tpsb).
  generalize (vS p z). intros v. rnum. rewrite Ep. 
  replace (100 / 10 - 461526 / 1000000 * v / (7853 / 10000)) with (-4615260 / 7853000 * v + 10 / 1) by field. field.
Qed.
Lemma psc_eq : @ps2T_reg2c RArith p (ptR 2 OS p t) - (t + Kc) = gpsc p z.
Proof.
  rewrite (s_f2 p t W). fold z. rewrite <- Tp. unfold ps2T_reg2c, gpsc, sv. cbv zeta. rewrite poly_powi_P. change (@ps2T_reg2c_IJn RArith) with (map rrow tpsc).
  generalize (vS p z). intros v. rnum. rewrite Ep. 
  replace (20 / 10 - 461526 / 1000000 * v / (29251 / 10000)) with (-4615260 / 29251000 * v + 2 / 1) by field. field.
Qed.
Lemma psa_eq q : 0 < q -> q * q * (q * q) = p -> @ps2T_reg2a RArith p (ptR 2 OS p t) - (t + Kc) = gpsa q z.
Proof.
  intros Q E. rewrite (s_f2 p t W). fold z. rewrite <- Tp. unfold gpsa. rewrite E. unfold sv.
  generalize (vS p z). intros v. unfold ps2T_reg2a. cbv zeta. set (IJ := @ps2T_reg2a_IJn RArith). rnum. rewrite Ep. rewrite <- E. subst IJ.
  rewrite (psa_sum q _ Q _ _ psa_rows).
  replace (461526 / 1000000 * v / (20 / 10) - 20 / 10) with (461526 / 2000000 * v + -2 / 1) by field. field.
Qed.
Lemma ph_back2 : Rabs (@ph2T_reg2 RArith p (ptR 2 OH p t) - (t + Kc)) <= 25 / 1000.
Proof.
  unfold ph2T_reg2. cbv zeta. pose proof pha_eq as Ea. pose proof phb_eq as Eb. pose proof phc_eq as Ec. pose proof (h_f2 p t W) as Eh. fold z in Eh.
  set (fa := @ph2T_reg2a RArith) in *. set (fb := @ph2T_reg2b RArith) in *. set (fc := @ph2T_reg2c RArith) in *. set (f2 := @enthalpy_2bc RArith).
  set (h := ptR 2 OH p t) in *.
  assert (Ef : f2 p = 26526571908428 / 10000000000 + sqrt ((p - 45257578905948 / 10000000000000) / (12809002730136 / 100000000000000000))).
  { unfold f2, enthalpy_2bc, enthalpy_2bc_n. cbn [nth]. rnum. reflexivity. }
  clearbody f2. rnum. unfold Rlt_b. destruct (Rlt_dec (40 / 10) p) as [L|L].
  2: { rewrite Ea. apply cov_pha; [lra|exact (proj2 I)|exact G]. }
  destruct (cov_phb p z ltac:(lra) (proj2 I) G) as (_ & Cb & Cc).
  assert (Eh' : hdv p z = h - 26526571908428 / 10000000000) by (unfold hdv; unfold hv in Eh; lra).
  assert (Es : selv p z = 12809002730136 / 100000000000000000 * ((p - 45257578905948 / 10000000000000) / (12809002730136 / 100000000000000000) - hdv p z * hdv p z)) by (unfold selv; field).
  set (e := (p - 45257578905948 / 10000000000000) / (12809002730136 / 100000000000000000)) in *. set (d := hdv p z) in *.
  destruct (Rlt_dec h (f2 p)) as [M|M]; rewrite Ef in M.
  - rewrite Ec. apply Cc. destruct (Rle_lt_dec d 0) as [D|D]; [left; exact D|right]. rewrite Es. apply Rmult_le_pos; [lra|].
    assert (d < sqrt e) by lra. assert (0 < e). { destruct (Rlt_le_dec 0 e) as [?|N]; [assumption|]. rewrite (sqrt_neg_0 e N) in *. lra. }
    pose proof (sqrt_sqrt e ltac:(lra)). nra.
  - rewrite Eb. apply Cb. rewrite Es. assert (sqrt e <= d) by lra. pose proof (sqrt_pos e).
    destruct (Rlt_le_dec e 0) as [N|N]; [nra|]. pose proof (sqrt_sqrt e N). nra.
Qed.
Lemma ps_back2 : Rabs (@ps2T_reg2 RArith p (ptR 2 OS p t) - (t + Kc)) <= 25 / 1000.
Proof.
  set (q := sqrt (sqrt p)).
  assert (q4 : q * q * (q * q) = p) by (pose proof (proj1 W); unfold q; rewrite sqrt_sqrt by apply sqrt_pos; apply sqrt_sqrt; lra).
  assert (q_pos : 0 < q) by (pose proof (proj1 W); apply sqrt_lt_R0, sqrt_lt_R0; lra).
  assert (Q0 : p <= 4 -> val aq0 <= q <= val aq1).
  { intros H. pose proof Lp as L. revert L. unfold aq0, aq1, al0. flv. intros L. split.
    - apply Rsqr_incr_0_var; [|lra]. apply Rsqr_incr_0_var; [|apply Rle_0_sqr]. unfold Rsqr. rewrite q4. lra.
    - apply Rsqr_incr_0_var; [|lra]. apply Rsqr_incr_0_var; [|apply Rle_0_sqr]. unfold Rsqr. rewrite q4. lra. }
  unfold ps2T_reg2. cbv zeta. pose proof (psa_eq q q_pos q4) as Ea. pose proof psb_eq as Eb. pose proof psc_eq as Ec. pose proof (s_f2 p t W) as Eh. fold z in Eh.
  set (fa := @ps2T_reg2a RArith) in *. set (fb := @ps2T_reg2b RArith) in *. set (fc := @ps2T_reg2c RArith) in *.
  set (h := ptR 2 OS p t) in *. rnum. unfold Rlt_b. destruct (Rlt_dec (40 / 10) p) as [L|L].
  2: { rewrite Ea. apply cov_psa; [apply Q0; lra|exact (proj2 I)|exact q_pos|rewrite q4; exact G]. }
  destruct (cov_psb p z ltac:(lra) (proj2 I) G) as (_ & Cb & Cc).
  destruct (Rlt_dec h (585 / 100)) as [M|M]; [rewrite Ec; apply Cc|rewrite Eb; apply Cb]; lra.
Qed.
End Back.

(* ---- at the level of the API ---- *)
Section Api2.
Variables p t : R.
Hypothesis V : vapour p t.
Hypothesis B : beyond23 p t.
Hypothesis S : if97_psat 273.15 <= p.
Lemma ph_region2 : phR OR p (ptR 2 OH p t) = 2.
Proof. unfold phR. rewrite (ph_known _ _ _ 2%Z OR (ph_map2 p t V B S)) by discriminate. reflexivity. Qed.
Lemma ps_region2 : psR OR p (ptR 2 OS p t) = 2.
Proof. unfold psR. rewrite (ps_known _ _ _ 2%Z OR (ps_map2 p t V B S)) by discriminate. reflexivity. Qed.
Lemma ph_t2 : Rabs (phR OT p (ptR 2 OH p t) - t) <= 0.025.
Proof.
  pose proof (ph_back2 p t (vap_wide _ _ V) (al0_min _ S)) as H. unfold phR. rewrite (ph_known _ _ _ 2%Z OT (ph_map2 p t V B S)) by discriminate.
  change (@ph RArith p (ptR 2 OH p t) (from_pair (OT, 2%Z))) with (@ph2T_reg2 RArith p (ptR 2 OH p t) - Kc).
  replace (@ph2T_reg2 RArith p (ptR 2 OH p t) - Kc - t) with (@ph2T_reg2 RArith p (ptR 2 OH p t) - (t + Kc)) by ring. lra.
Qed.
Lemma ps_t2 : Rabs (psR OT p (ptR 2 OS p t) - t) <= 0.025.
Proof.
  pose proof (ps_back2 p t (vap_wide _ _ V) (al0_min _ S)) as H. unfold psR. rewrite (ps_known _ _ _ 2%Z OT (ps_map2 p t V B S)) by discriminate.
  change (@ps RArith p (ptR 2 OS p t) (from_pair (OT, 2%Z))) with (@ps2T_reg2 RArith p (ptR 2 OS p t) - Kc).
  replace (@ps2T_reg2 RArith p (ptR 2 OS p t) - Kc - t) with (@ps2T_reg2 RArith p (ptR 2 OS p t) - (t + Kc)) by ring. lra.
Qed.
End Api2.
Lemma h_vap p t1 t2 : vapour p t1 -> t1 < t2 -> t2 <= 800 -> ptR 2 OH p t1 < ptR 2 OH p t2.
Proof. intros H L U. apply h_incr2; [exact (vap_wide _ _ H)|exact L|unfold Kc; lra]. Qed.
Lemma s_vap p t1 t2 : vapour p t1 -> t1 < t2 -> t2 <= 800 -> ptR 2 OS p t1 < ptR 2 OS p t2.
Proof. intros H L U. apply s_incr2; [exact (vap_wide _ _ H)|exact L|unfold Kc; lra]. Qed.
Lemma vap_unique p t1 t2 : vapour p t1 -> vapour p t2 -> (ptR 2 OH p t1 = ptR 2 OH p t2 \/ ptR 2 OS p t1 = ptR 2 OS p t2) -> t1 = t2.
Proof.
  intros A B E. pose proof (proj1 A). pose proof (proj1 B). destruct (Rtotal_order t1 t2) as [L|[L|L]]; [|exact L|].
  - pose proof (h_vap p t1 t2 A L ltac:(lra)). pose proof (s_vap p t1 t2 A L ltac:(lra)). destruct E; lra.
  - pose proof (h_vap p t2 t1 B L ltac:(lra)). pose proof (s_vap p t2 t1 B L ltac:(lra)). destruct E; lra.
Qed.

(* ---- on the boundary with region 3 ---- *)
Lemma edge_T : 700 < if97_b23T (if97_b23 700).
Proof. unfold if97_b23T, if97_b23. interval with (i_prec 110). Qed.
Lemma edge_p : 30 < if97_b23 700 < 31.
Proof. unfold if97_b23. split; interval with (i_prec 60). Qed.
Lemma edge_vap : vapour (if97_b23 700) 426.85.
Proof. pose proof edge_p. replace 700 with (426.85 + 273.15) in * by lra. split; [lra|]. split; [lra|]. split; [lra|]. intros _. lra. Qed.
Lemma ph_edge2 : phR OR (if97_b23 700) (ptR 2 OH (if97_b23 700) 426.85) = 3.
Proof.
  pose proof edge_vap as V. pose proof edge_p as E. pose proof edge_T as ET. set (p := if97_b23 700) in *. set (t := 426.85) in *.
  pose proof (vap_wide _ _ V) as W. pose proof (h2_big p t W ltac:(unfold al0; flv; lra)) as Big.
  pose proof (h1_lt p _ (low_wide p ltac:(lra))) as K2. replace 623.15 with (62315 / 100) in K2 by lra. 
  assert (M : ptR 2 OH p t < @pT2h_reg2 RArith p (if97_b23T p)).
  { pose proof (b23T_hi p ltac:(lra)). replace (if97_b23T p) with (if97_b23T p - Kc + Kc) by ring.
    apply (h_incr2 p t (if97_b23T p - Kc) W); [unfold t, Kc; lra|]. replace (if97_b23T p - Kc + Kc) with (if97_b23T p) by ring. lra. }
  assert (R : @ph_sub_region RArith p (ptR 2 OH p t) = 3%Z).
  { set (h := ptR 2 OH p t) in *.
    unfold ph_sub_region, P_MIN, Ps_623, PC_WATER. cbv zeta. set (f1 := @pT2h_reg1 RArith) in *. set (f2 := @Reg2.pT2h_reg2 RArith) in *. set (f5 := @Reg5.pT2h_reg5 RArith).
    set (ts := @T_saturation RArith). set (bt3 := @B23_p2T RArith). rnum.
    iff. iff. ift. iff. unfold bt3. rewrite b23T_code by lra. ift. reflexivity. }
  unfold phR. rewrite (ph_known _ _ _ 3%Z OR R) by discriminate. reflexivity.
Qed.

(* ---- below the saturation pressure at 0 C ---- *)
Lemma ph_low p h : 0 < p < 0.000611212677444 -> @ph_sub_region RArith p h = INVALID_VALUE.
Proof.
  intros H. unfold ph_sub_region, P_MIN, Ps_623, PC_WATER. cbv zeta. set (f1 := @pT2h_reg1 RArith) in *. set (f2 := @Reg2.pT2h_reg2 RArith) in *. set (f5 := @Reg5.pT2h_reg5 RArith).
  set (ts := @T_saturation RArith). set (bt3 := @B23_p2T RArith). rnum. iff. iff. iff. reflexivity.
Qed.
Lemma ps_low p h : 0 < p < 0.000611212677444 -> @ps_sub_region RArith p h = INVALID_VALUE.
Proof.
  intros H. unfold ps_sub_region, P_MIN, Ps_623, PC_WATER. cbv zeta. set (f1 := @pT2s_reg1 RArith) in *. set (f2 := @Reg2.pT2s_reg2 RArith) in *. set (f5 := @Reg5.pT2s_reg5 RArith).
  set (ts := @T_saturation RArith). set (bt3 := @B23_p2T RArith). rnum. iff. iff. iff. reflexivity.
Qed.
Lemma ph_low_any p h o : 0 < p < 0.000611212677444 -> o <> OP -> o <> OH -> phR o p h = IZR INVALID_VALUE.
Proof.
  intros H A B. unfold phR. rewrite (ph_known _ _ _ INVALID_VALUE o (ph_low p h H)) by discriminate. unfold ph. change (o_id_reg_info (from_pair (o, INVALID_VALUE))) with (o, INVALID_VALUE). cbv iota beta.
  apply Z.eqb_neq in A, B. rewrite A, B. unfold pair_properties. destruct (Z.eqb o OR), (Z.eqb o OX); reflexivity.
Qed.
Lemma ps_low_any p h o : 0 < p < 0.000611212677444 -> o <> OP -> o <> OS -> psR o p h = IZR INVALID_VALUE.
Proof.
  intros H A B. unfold psR. rewrite (ps_known _ _ _ INVALID_VALUE o (ps_low p h H)) by discriminate. unfold ps. change (o_id_reg_info (from_pair (o, INVALID_VALUE))) with (o, INVALID_VALUE). cbv iota beta.
  apply Z.eqb_neq in A, B. rewrite A, B. unfold pair_properties. destruct (Z.eqb o OR), (Z.eqb o OX); reflexivity.
Qed.
Lemma edge_min : if97_psat 273.15 <= if97_b23 700.
Proof. pose proof psat_273. pose proof edge_p. lra. Qed.
Lemma low_state : vapour 0.0005 100 /\ beyond23 0.0005 100.
Proof. unfold vapour, beyond23. repeat split; try lra; intros; try lra. unfold if97_psat. cbv zeta. interval. Qed.
Lemma ph_low_ex : exists p t, vapour p t /\ beyond23 p t /\ forall o h, o <> OP -> o <> OH -> phR o p h = IZR INVALID_VALUE.
Proof. exists 0.0005, 100. split; [apply low_state|split; [apply low_state|]]. intros o h. apply ph_low_any. lra. Qed.
Lemma ps_low_ex : exists p t, vapour p t /\ beyond23 p t /\ forall o s, o <> OP -> o <> OS -> psR o p s = IZR INVALID_VALUE.
Proof. exists 0.0005, 100. split; [apply low_state|split; [apply low_state|]]. intros o h. apply ps_low_any. lra. Qed.
