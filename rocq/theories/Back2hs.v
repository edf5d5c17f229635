(* p(h,s) in region 2: the backward equations of 2a, 2b and 2c give the pressure back. *)
From Coq Require Import ZArith Reals List Bool Lra Lia.
From Coquelicot Require Rcomplements.
From Interval Require Import Tactic.
From Verif Require Import Num RealInst Constant Reg2 Reg2Back Api SpecReal SatInv RealSat RSums GibbsModel
  SpecThermo ThermoApi FloatErr FloatUp Steps Taylor TaylorSum Enc1 Enc2 Enc2hs Bound1 Tree1 Bound2 Tree2 Bound2hs Tree2hs SpecStable SpecSteam Stab1 Stab2 Back2.
Import ListNotations.
Open Scope R_scope.

Lemma sq_close q w c (d := c * (w * / q * (w * / q)) - 1) : 0 < q -> 0 < c -> Rabs d <= / 16384 -> Rabs (c * c * (w * w) * (w * w) / (q * q * (q * q)) - 1) <= 0.000125.
Proof.
  intros Hq Hc H. replace (c * c * (w * w) * (w * w) / (q * q * (q * q)) - 1) with (d * (d + 2)) by (unfold d; field; lra).
  apply Rcomplements.Rabs_le_between in H. apply Rcomplements.Rabs_le_between. clearbody d. split; nra.
Qed.

Section Back.
Variables p t : R.
Hypothesis W : wide2 p (t + Kc).
Hypothesis Lp : val al0 <= p.
Let z := wy (t + Kc).
Let I := proj1 (wide2_in _ _ W).
Let G := proj2 (wide2_in _ _ W).
Let q := sqrt (sqrt p).
Lemma q4p : xq q = p.
Proof. pose proof (proj1 W). unfold q, xq. rewrite sqrt_sqrt by apply sqrt_pos. apply sqrt_sqrt. lra. Qed.
Lemma q_pos : 0 < q. Proof. pose proof (proj1 W). apply sqrt_lt_R0, sqrt_lt_R0. lra. Qed.
Lemma q_box : val aq0 <= q <= val am2.
Proof.
  pose proof Lp as L. pose proof (proj1 W) as U. pose proof q_pos as Q. revert L. unfold aq0, am2, al0. flv. intros L. split.
  - apply Rsqr_incr_0_var; [|lra]. apply Rsqr_incr_0_var; [|apply Rle_0_sqr]. unfold Rsqr. fold (xq q). rewrite q4p. lra.
  - apply Rsqr_incr_0_var; [|lra]. apply Rsqr_incr_0_var; [|apply Rle_0_sqr]. unfold Rsqr. fold (xq q). rewrite q4p. lra.
Qed.
Let h := ptR 2 OH p t.
Let s := ptR 2 OS p t.
Let Eh : h = hv p z. Proof. exact (h_f2 p t W). Qed.
Let Es : s = sv p z. Proof. exact (s_f2 p t W). Qed.
Lemma hsa_eq : @hs2p_reg2a RArith h s = 2 * 2 * (piA (vH p z) (vS p z) * piA (vH p z) (vS p z)) * (piA (vH p z) (vS p z) * piA (vH p z) (vS p z)).
Proof.
  rewrite Eh, Es. unfold hs2p_reg2a. cbv zeta. rewrite !poly_powi_P. change (@hs2p_reg2a_IJn RArith) with (map rrow thsa). unfold hv, sv, piA.
  generalize (vH p z) (vS p z). intros a b. rnum.
  replace (24922404 / 100000 * a / (42000 / 10) - 5 / 10) with (24922404 / 420000000 * a + -5 / 10) by field.
  replace (461526 / 1000000 * b / (120 / 10) - 12 / 10) with (461526 / 12000000 * b + -12 / 10) by field. field.
Qed.
Lemma hsb_eq : @hs2p_reg2b RArith h s = 10 * 10 * (piB (vH p z) (vS p z) * piB (vH p z) (vS p z)) * (piB (vH p z) (vS p z) * piB (vH p z) (vS p z)).
Proof.
  rewrite Eh, Es. unfold hs2p_reg2b. cbv zeta. rewrite !poly_powi_P. change (@hs2p_reg2b_IJn RArith) with (map rrow thsb). unfold hv, sv, piB.
  generalize (vH p z) (vS p z). intros a b. rnum.
  replace (24922404 / 100000 * a / (41000 / 10) - 6 / 10) with (24922404 / 410000000 * a + -6 / 10) by field.
  replace (461526 / 1000000 * b / (79 / 10) - 101 / 100) with (461526 / 7900000 * b + -101 / 100) by field. field.
Qed.
Lemma hsc_eq : @hs2p_reg2c RArith h s = 10 * 10 * (piC (vH p z) (vS p z) * piC (vH p z) (vS p z)) * (piC (vH p z) (vS p z) * piC (vH p z) (vS p z)).
Proof.
  rewrite Eh, Es. unfold hs2p_reg2c. cbv zeta. rewrite !poly_powi_P. change (@hs2p_reg2c_IJn RArith) with (map rrow thsc). unfold hv, sv, piC.
  generalize (vH p z) (vS p z). intros a b. rnum.
  replace (24922404 / 100000 * a / (35000 / 10) - 7 / 10) with (24922404 / 350000000 * a + -7 / 10) by field.
  replace (461526 / 1000000 * b / (59 / 10) - 11 / 10) with (461526 / 5900000 * b + -11 / 10) by field. field.
Qed.
Lemma sel_eq : sab2 q z = h - @s2h_reg2_ab RArith s.
Proof.
  unfold sab2. rewrite q4p. rewrite Eh, Es. unfold sab, zS, s2h_reg2_ab, hv, sv. cbv zeta. cbn [nth]. generalize (vH p z) (vS p z). intros a b. rnum. field.
Qed.
Lemma hs_back2 : Rabs (@hs2p_reg2 RArith h s / p - 1) <= 0.000125.
Proof.
  pose proof (cov_hs q z q_box (proj2 I) q_pos ltac:(rewrite q4p; exact G)) as (Ca & Cb & Cc). unfold g_a, g_b, g_c, sqg in *. rewrite q4p in *.
  pose proof hsa_eq as Ea. pose proof hsb_eq as Eb. pose proof hsc_eq as Ec. pose proof sel_eq as El. rewrite <- Es in Cb, Cc.
  unfold hs2p_reg2. cbv zeta. set (fa := @hs2p_reg2a RArith) in *. set (fb := @hs2p_reg2b RArith) in *. set (fc := @hs2p_reg2c RArith) in *. set (f := @s2h_reg2_ab RArith) in *. clearbody f.
  rnum. pose proof q_pos as Q. unfold Rlt_b, Rle_b. destruct (Rlt_dec (f s) h) as [M|M]; [destruct (Rle_dec (585 / 100) s) as [N|N]|].
  - rewrite Eb. set (w := piB _ _) in *. clearbody w. rewrite <- q4p. unfold xq. apply sq_close; [exact Q|lra|]. specialize (Cb ltac:(lra) ltac:(lra)). match type of Cb with Rabs ?a <= _ => match goal with |- Rabs ?b <= _ => replace b with a by (field; lra) end end. exact Cb.
  - rewrite Ec. set (w := piC _ _) in *. clearbody w. rewrite <- q4p. unfold xq. apply sq_close; [exact Q|lra|]. specialize (Cc ltac:(lra) ltac:(lra)). match type of Cc with Rabs ?a <= _ => match goal with |- Rabs ?b <= _ => replace b with a by (field; lra) end end. exact Cc.
  - rewrite Ea. set (w := piA _ _) in *. clearbody w. rewrite <- q4p. unfold xq. apply sq_close; [exact Q|lra|]. specialize (Ca ltac:(lra)). match type of Ca with Rabs ?a <= _ => match goal with |- Rabs ?b <= _ => replace b with a by (field; lra) end end. exact Ca.
Qed.
End Back.
Lemma hs_p2 fuel p t : vapour p t -> if97_psat 273.15 <= p ->
  exists q, @hs RArith fuel (ptR 2 OH p t) (ptR 2 OS p t) (from_pair (OP, 2%Z)) = Some q /\ Rabs (q - p) <= 0.000125 * p.
Proof.
  intros V S. exists (@hs2p_reg2 RArith (ptR 2 OH p t) (ptR 2 OS p t)). split; [reflexivity|].
  pose proof (hs_back2 p t (vap_wide _ _ V) (al0_min _ S)) as H. set (x := @hs2p_reg2 RArith _ _) in *.
  assert (P : 0 < p) by (pose proof (vap_wide _ _ V) as Y; pose proof (proj1 Y); lra).
  replace (x - p) with ((x / p - 1) * p) by (field; lra). rewrite Rabs_mult, (Rabs_pos_eq p) by lra. apply Rmult_le_compat_r; lra.
Qed.
