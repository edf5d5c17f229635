(* The region maps of ts and th on an isotherm. *)
From Coq Require Import ZArith Reals List Bool Lra Lia.
From Coquelicot Require Import Coquelicot.
From Interval Require Import Tactic.
From Verif Require Import RegionMap SpecSub3 Num RealInst Constant R4Sat Reg1 Reg2 Reg5 Reg3Td Boundaries Reg1Back Reg2Back Reg3V Reg3 Reg4 Region Api Spec SpecReal SpecWet SatInv RealSat SatApi LeverReal SatBand1 SatBand2 WetGap RSums Gibbs GibbsModel GibbsModel5
  SpecThermo ThermoApi ThermoPts SpecStable SpecSteam SpecGas SpecMap Stab1 Stab2 Stab5 Back2 Map12 TvMap Expand.
Open Scope R_scope.

Ltac tkonst := unfold T_MIN1, T_MAX1, T_MIN2, T_MAX2, T_MIN3, T_MAX3, T_MIN5, T_MAX5, TC_WATER, S_MAX, S_MIN.
Ltac vcases := repeat (match goal with
  | |- context [Rle_dec ?x ?y] => destruct (Rle_dec x y)
  | |- context [Rlt_dec ?x ?y] => destruct (Rlt_dec x y) end; cbn [andb orb]; try (exfalso; lra)).
Lemma ts_or t s : @ts RArith t s (from_i32 OR) = IZR (@ts_sub_region RArith t s). Proof. reflexivity. Qed.
Lemma th_or fuel t h : @Api.th RArith fuel t h (from_i32 OR) = option_map IZR (@th_sub_region RArith fuel t h).
Proof. unfold Api.th, pair_properties_o. cbn. destruct (@th_sub_region RArith fuel t h); reflexivity. Qed.
Lemma E8 : @P_MIN2 RArith = 1e-8%R. Proof. unfold P_MIN2. rnum. lra. Qed.
Lemma E100 : @lit RArith (100.0%dec) = 100%R. Proof. rnum. lra. Qed.
Lemma E50 : @lit RArith (50.0%dec) = 50%R. Proof. rnum. lra. Qed.
Lemma E5 : @P_MIN5 RArith = 0.000611212677444%R. Proof. unfold P_MIN5. rnum. lra. Qed.
Lemma E5m : @P_MAX5 RArith = 50%R. Proof. unfold P_MAX5. rnum. lra. Qed.

Section Low.
Variable t : R.
Hypothesis H : 0 <= t <= 350.
Let T := t + Kc.
Let ps := if97_psat T.
Let Rg : 273.15 <= T <= 623.15. Proof. exact (T_range t H). Qed.
Let Pg : 0.0006 < ps < 17. Proof. exact (ps_range t H). Qed.
Lemma s_gap : ptR 1 OS ps t < ptR 2 OS ps t.
Proof.
  pose proof (at_sat ps T ltac:(lra) ltac:(lra) (sat_bound1 T ltac:(lra)) (sat_bound2 T ltac:(lra))) as (_ & G & _).
  change (@pT_reg1 RArith ps T OS) with (ptR 1 OS ps t) in G. change (@pT_reg2 RArith ps T OS) with (ptR 2 OS ps t) in G. lra.
Qed.
Lemma h_gap : ptR 1 OH ps t < ptR 2 OH ps t /\ ptR 1 OH 100 t < ptR 2 OH ps t.
Proof.
  assert (B : 2100 < ptR 2 OH ps t).
  { apply h2_big; [apply (w2 t H); fold T ps; lra|]. apply al0_min. unfold ps. destruct (proj1 Rg) as [E| <-]; [left; apply psat_mono; lra|lra]. }
  pose proof (h1_lt ps T (w1 t H ps ltac:(fold T ps; lra))) as A. pose proof (h1_lt 100 T (w1 t H 100 ltac:(fold T ps; lra))) as C.
  change (@pT2h_reg1 RArith ps T) with (ptR 1 OH ps t) in A. change (@pT2h_reg1 RArith 100%R T) with (ptR 1 OH 100 t) in C. lra.
Qed.
Lemma s_low_all s : -0.008583 <= s <= 18.992 ->
  (IZR (@ts_sub_region RArith t s) = 1 <-> ptR 1 OS 100 t < s < ptR 1 OS ps t) /\
  (IZR (@ts_sub_region RArith t s) = 2 <-> ptR 2 OS ps t < s < ptR 2 OS 1e-8 t) /\
  (IZR (@ts_sub_region RArith t s) = 4 <-> ptR 1 OS ps t <= s <= ptR 2 OS ps t).
Proof.
  intros Hs. pose proof s_gap as G.
  assert (E : ptR 2 OS ps t < ptR 2 OS 1e-8 t) by (apply s_decr2; [lra|lra|apply (w2 t H); fold T ps; lra]).
  pose proof Rg as R. unfold ts_sub_region. cbv zeta. change (@add RArith t (@lit RArith (273.15%dec))) with T. rewrite psat_real by lra. change (if97_psat T) with ps. rewrite E8, E100.
  change (ptR 2 OS 1e-8 t) with (@pT2s_reg2 RArith 1e-8%R T) in *. change (ptR 2 OS ps t) with (@pT2s_reg2 RArith ps T) in *. change (ptR 1 OS ps t) with (@pT2s_reg1 RArith ps T) in *.
  change (ptR 1 OS 100 t) with (@pT2s_reg1 RArith 100%R T) in *.
  set (f1 := @pT2s_reg1 RArith) in *. set (f2 := @pT2s_reg2 RArith) in *. set (f3 := @pT_reg3 RArith). set (f5 := @pT2s_reg5 RArith). set (td := @Td2s_reg3 RArith).
  set (b := f1 ps T) in *. set (c := f2 ps T) in *. set (d := f2 1e-8%R T) in *.
  set (bp := @B23_T2p RArith). set (psa := @p_saturation RArith). set (vs3 := @pT2v_sat_reg3 RArith).
  set (a := f1 100%R T) in *.
  clearbody f1 f2 f3 f5 a b c d bp psa vs3 td T. clear H Rg Pg. tkonst. rnum.
  unfold Rle_b, Rlt_b. tcases T; vcases; change INVALID_VALUE with (-9999)%Z; change INVALID_S with (-2102)%Z; repeat split; intros; lra.
Qed.
Lemma ts_is1 s : 5 <= t -> -0.008583 <= s <= 18.992 -> (IZR (@ts_sub_region RArith t s) = 1 <-> exists p, if97_psat (t + 273.15) < p < 100 /\ s = ptR 1 OS p t).
Proof.
  intros H5 Hs. rewrite (proj1 (s_low_all s Hs)). change (if97_psat (t + 273.15)) with ps. apply (span_open (fun p => ptR 1 OS p t) (fun p => - 1000 * ptR 1 ODVDT p t) ps 100); [lra| |].
  - intros p Hp. exact (dS_dp 1 p t (wide_dom _ _ _ (w1 t H p Hp) eq_refl)).
  - intros x y A B C. apply s_decr1; [exact H5|apply (w1 t H); fold T ps; lra|lra|lra].
Qed.
Lemma ts_is2 s : -0.008583 <= s <= 18.992 -> (IZR (@ts_sub_region RArith t s) = 2 <-> exists p, 1e-8 < p < if97_psat (t + 273.15) /\ s = ptR 2 OS p t).
Proof.
  intros Hs. rewrite (proj1 (proj2 (s_low_all s Hs))). change (if97_psat (t + 273.15)) with ps. apply (span_open (fun p => ptR 2 OS p t) (fun p => - 1000 * ptR 2 ODVDT p t) 1e-8 ps); [lra| |].
  - intros p Hp. exact (dS_dp 2 p t (wide2_dom _ _ _ (w2 t H p ltac:(fold T ps; lra)) eq_refl)).
  - intros x y A B C. apply s_decr2; [lra|lra|apply (w2 t H); fold T ps; lra].
Qed.
Lemma water_h : @T2sat_water RArith T OH = ptR 1 OH ps t /\ @T2sat_steam RArith T OH = ptR 2 OH ps t.
Proof.
  pose proof Rg as R.
  assert (C : @ltb RArith (@nabs RArith (@sub RArith T TC_WATER)) FLOAT_ERROR = false).
  { unfold TC_WATER, FLOAT_ERROR. rnum. apply Rlt_b_false. rewrite Rabs_left1; lra. }
  assert (B2 : @leb RArith T (@lit RArith (623.15%dec)) = true) by (rnum; apply Rle_b_true; lra).
  unfold T2sat_water, T2sat_steam. change (Z.eqb OH OT) with false. change (Z.eqb OH OP) with false. cbv iota zeta. rewrite C, B2. cbv iota.
  rewrite psat_real by lra. split; reflexivity.
Qed.
Lemma h_low_all fuel h : @th_sub_region RArith fuel t h = Some 2%Z <-> ptR 2 OH ps t < h < ptR 2 OH 1e-8 t.
Proof.
  pose proof h_gap as [G1 G2]. destruct water_h as [W1 W2].
  assert (E : ptR 2 OH ps t < ptR 2 OH 1e-8 t) by (apply h_decr2; [lra|lra|apply (w2 t H); fold T ps; lra]).
  pose proof Rg as R. unfold th_sub_region. cbv zeta. change (@add RArith t (@lit RArith (273.15%dec))) with T. rewrite W1, W2, E8, E100.
  change (ptR 2 OH 1e-8 t) with (@pT2h_reg2 RArith 1e-8%R T) in *. change (ptR 1 OH 100 t) with (@pT2h_reg1 RArith 100%R T) in *.
  set (f1 := @pT2h_reg1 RArith) in *. set (f2 := @pT2h_reg2 RArith) in *. set (f3 := @pt_reg3 RArith). set (f5 := @pT2h_reg5 RArith). set (td := @Td2h_reg3 RArith).
  set (b := ptR 1 OH ps t) in *. set (c := ptR 2 OH ps t) in *. set (d := f2 1e-8%R T) in *.
  set (bp := @B23_T2p RArith). set (psa := @p_saturation RArith). set (vs3 := @pT2v_sat_reg3 RArith).
  set (a := f1 100%R T) in *. set (mn := @th_Hmin RArith).
  clearbody f1 f2 f3 f5 a b c d bp psa vs3 td mn T. clear H Rg Pg W1 W2. tkonst. rnum.
  unfold Rle_b, Rlt_b. change INVALID_VALUE with (-9999)%Z. tcases T; vcases; try (split; [discriminate|intros; lra]); try (split; [intros; lra|reflexivity]);
    destruct (mn _ _ _ _) as [m|]; vcases; (split; [intros E0; discriminate E0|intros; exfalso; lra]).
Qed.
End Low.

(* 350 to 590 C *)
Section Mid.
Variable t : R.
Hypothesis H : 350 < t <= 590.
Hypothesis Hb : if97_b23 (t + 273.15) <= 100.
Let T := t + Kc.
Let pb := if97_b23 T.
Let Rg : 623.15 < T <= 863.15. Proof. exact (TB_range t H). Qed.
Let Pg : 10 < pb <= 100. Proof. exact (pb_range t H Hb). Qed.
Let wm' p : 0 < p <= pb -> wide2 p T. Proof. exact (wm t H Hb p). Qed.
Lemma s_mid_all s : -0.008583 <= s <= 18.992 -> (IZR (@ts_sub_region RArith t s) = 2 <-> ptR 2 OS pb t <= s < ptR 2 OS 1e-8 t).
Proof.
  intros Hs. pose proof Rg as R. unfold ts_sub_region. cbv zeta. change (@add RArith t (@lit RArith (273.15%dec))) with T. rewrite E8.
  change (ptR 2 OS pb t) with (@pT2s_reg2 RArith pb T). change (ptR 2 OS 1e-8 t) with (@pT2s_reg2 RArith 1e-8%R T). replace (@B23_T2p RArith T) with pb by (symmetry; apply b23_real).
  set (f1 := @pT2s_reg1 RArith) in *. set (f2 := @pT2s_reg2 RArith) in *. set (f3 := @pT_reg3 RArith). set (f5 := @pT2s_reg5 RArith). set (td := @Td2s_reg3 RArith).
  set (c := f2 pb T) in *. set (d := f2 1e-8%R T) in *. set (psa := @p_saturation RArith). set (vs3 := @pT2v_sat_reg3 RArith).
  clearbody f1 f2 f3 f5 c d psa vs3 td pb T. clear H Hb Rg Pg wm'. tkonst. rnum.
  unfold Rle_b, Rlt_b. tcases T; vcases; change INVALID_VALUE with (-9999)%Z; change INVALID_S with (-2102)%Z; split; intros; lra.
Qed.
Lemma h_mid_all fuel h : @th_sub_region RArith fuel t h = Some 2%Z <-> ptR 2 OH pb t <= h < ptR 2 OH 1e-8 t.
Proof.
  pose proof Rg as R. unfold th_sub_region. cbv zeta. change (@add RArith t (@lit RArith (273.15%dec))) with T. rewrite E8.
  change (ptR 2 OH pb t) with (@pT2h_reg2 RArith pb T). change (ptR 2 OH 1e-8 t) with (@pT2h_reg2 RArith 1e-8%R T). replace (@B23_T2p RArith T) with pb by (symmetry; apply b23_real).
  set (f1 := @pT2h_reg1 RArith) in *. set (f2 := @pT2h_reg2 RArith) in *. set (f3 := @pt_reg3 RArith). set (f5 := @pT2h_reg5 RArith). set (td := @Td2h_reg3 RArith).
  set (c := f2 pb T) in *. set (d := f2 1e-8%R T) in *. set (psa := @p_saturation RArith). set (vs3 := @pT2v_sat_reg3 RArith). set (mn := @th_Hmin RArith). set (sw := @T2sat_water RArith). set (st := @T2sat_steam RArith).
  clearbody f1 f2 f3 f5 c d psa vs3 td mn sw st pb T. clear H Hb Rg Pg wm'. tkonst. rnum.
  unfold Rle_b, Rlt_b. change INVALID_VALUE with (-9999)%Z. tcases T; vcases; try (split; [discriminate|intros; lra]); try (split; [intros; lra|reflexivity]).
Qed.
Lemma ts_is2m s : -0.008583 <= s <= 18.992 -> (IZR (@ts_sub_region RArith t s) = 2 <-> exists p, 1e-8 < p <= if97_b23 (t + 273.15) /\ s = ptR 2 OS p t).
Proof.
  intros Hs. rewrite (s_mid_all s Hs). change (if97_b23 (t + 273.15)) with pb. apply (span_half (fun p => ptR 2 OS p t) (fun p => - 1000 * ptR 2 ODVDT p t) 1e-8 pb); [lra| |].
  - intros p Hp. exact (dS_dp 2 p t (wide2_dom _ _ _ (wm' p ltac:(lra)) eq_refl)).
  - intros x y A B C. apply s_decr2; [lra|lra|apply wm'; lra].
Qed.
Lemma th_is2m fuel h : @th_sub_region RArith fuel t h = Some 2%Z <-> exists p, 1e-8 < p <= if97_b23 (t + 273.15) /\ h = ptR 2 OH p t.
Proof.
  rewrite (h_mid_all fuel h). change (if97_b23 (t + 273.15)) with pb. apply (span_half (fun p => ptR 2 OH p t) (fun p => 1000 * ptR 2 OIJTC p t) 1e-8 pb); [lra| |].
  - intros p Hp. exact (dH_dp 2 p t (wide2_dom _ _ _ (wm' p ltac:(lra)) eq_refl)).
  - intros x y A B C. apply h_decr2; [lra|lra|apply wm'; lra].
Qed.
End Mid.
Lemma th_is2 t (H : 0 <= t <= 350) fuel h : @th_sub_region RArith fuel t h = Some 2%Z <-> exists p, 1e-8 < p < if97_psat (t + 273.15) /\ h = ptR 2 OH p t.
Proof.
  rewrite (h_low_all t H fuel h). pose proof (ps_range t H) as Pg. change (if97_psat (t + 273.15)) with (if97_psat (t + Kc)). set (ps := if97_psat (t + Kc)) in *.
  apply (span_open (fun p => ptR 2 OH p t) (fun p => 1000 * ptR 2 OIJTC p t) 1e-8 ps); [lra| |].
  - intros p Hp. exact (dH_dp 2 p t (wide2_dom _ _ _ (w2 t H p ltac:(fold ps; lra)) eq_refl)).
  - intros x y A B C. apply h_decr2; [lra|lra|apply (w2 t H); fold ps; lra].
Qed.

(* region 5 *)
Section Hot.
Variable t : R.
Hypothesis H : 800 < t <= 2000.
Let T := t + Kc.
Let p5 := 0.000611212677444.
Let Rg : 1073.15 < T <= 2273.15. Proof. unfold T, Kc. lra. Qed.
Lemma s_hot_all s : -0.008583 <= s <= 18.992 -> (IZR (@ts_sub_region RArith t s) = 5 <-> ptR 5 OS 50 t <= s <= ptR 5 OS p5 t).
Proof.
  intros Hs. pose proof Rg as R. unfold ts_sub_region. cbv zeta. change (@add RArith t (@lit RArith (273.15%dec))) with T. rewrite E5, E50.
  change (ptR 5 OS 50 t) with (@pT2s_reg5 RArith 50%R T). change (ptR 5 OS p5 t) with (@pT2s_reg5 RArith p5 T). change 0.000611212677444%R with p5.
  set (f1 := @pT2s_reg1 RArith) in *. set (f2 := @pT2s_reg2 RArith) in *. set (f3 := @pT_reg3 RArith). set (f5 := @pT2s_reg5 RArith). set (td := @Td2s_reg3 RArith).
  set (c := f5 50%R T) in *. set (d := f5 p5 T) in *. set (psa := @p_saturation RArith). set (vs3 := @pT2v_sat_reg3 RArith). set (bp := @B23_T2p RArith).
  clearbody f1 f2 f3 f5 c d psa vs3 td bp T. clear H Rg. tkonst. rnum.
  unfold Rle_b, Rlt_b. tcases T; vcases; change INVALID_VALUE with (-9999)%Z; change INVALID_S with (-2102)%Z; split; intros; lra.
Qed.
Lemma h_hot_all fuel h : @th_sub_region RArith fuel t h = Some 5%Z <-> ptR 5 OH 50 t <= h <= ptR 5 OH p5 t.
Proof.
  pose proof Rg as R. unfold th_sub_region. cbv zeta. change (@add RArith t (@lit RArith (273.15%dec))) with T. rewrite E5, E5m.
  change (ptR 5 OH 50 t) with (@pT2h_reg5 RArith 50%R T). change (ptR 5 OH p5 t) with (@pT2h_reg5 RArith p5 T). change 0.000611212677444%R with p5.
  set (f1 := @pT2h_reg1 RArith) in *. set (f2 := @pT2h_reg2 RArith) in *. set (f3 := @pt_reg3 RArith). set (f5 := @pT2h_reg5 RArith). set (td := @Td2h_reg3 RArith).
  set (c := f5 50%R T) in *. set (d := f5 p5 T) in *. set (psa := @p_saturation RArith). set (vs3 := @pT2v_sat_reg3 RArith). set (bp := @B23_T2p RArith). set (mn := @th_Hmin RArith). set (sw := @T2sat_water RArith). set (st := @T2sat_steam RArith).
  clearbody f1 f2 f3 f5 c d psa vs3 td mn sw st bp T. clear H Rg. tkonst. rnum.
  unfold Rle_b, Rlt_b. change INVALID_VALUE with (-9999)%Z. tcases T; vcases; try (split; [discriminate|intros; lra]); try (split; [intros; lra|reflexivity]).
Qed.
Lemma ts_is5 s : -0.008583 <= s <= 18.992 -> (IZR (@ts_sub_region RArith t s) = 5 <-> exists p, 0.000611212677444 <= p <= 50 /\ s = ptR 5 OS p t).
Proof.
  intros Hs. rewrite (s_hot_all s Hs). apply (span (fun p => ptR 5 OS p t) (fun p => - 1000 * ptR 5 ODVDT p t) p5 50); [unfold p5; lra| |].
  - intros p Hp. apply (dS_dp 5 p t). apply dom5_gas. unfold hot_gas, p5 in *. lra.
  - intros x y A B C. apply s_decr5; [unfold p5 in *; lra|lra|unfold hot_gas, p5 in *; lra].
Qed.
Lemma th_is5 fuel h : @th_sub_region RArith fuel t h = Some 5%Z <-> exists p, 0.000611212677444 <= p <= 50 /\ h = ptR 5 OH p t.
Proof.
  rewrite (h_hot_all fuel h). apply (span (fun p => ptR 5 OH p t) (fun p => 1000 * ptR 5 OIJTC p t) p5 50); [unfold p5; lra| |].
  - intros p Hp. apply (dH_dp 5 p t). apply dom5_gas. unfold hot_gas, p5 in *. lra.
  - intros x y A B C. apply h_decr5; [unfold p5 in *; lra|lra|unfold hot_gas, p5 in *; lra].
Qed.
End Hot.

(* cold water: at 1 C the entropy of the liquid rises with pressure, and ts calls it wet *)
Lemma cold_dvdt p : 0 <= p <= 5 -> f_dvdt (Gib 1) p (1 + Kc) < 0.
Proof. intros H. unfold f_dvdt. tab. interval with (i_bisect p, i_taylor p, i_depth 40). Qed.
Lemma cold_s p : 0 <= p <= 5 -> 0 < f_s (Gib 1) p (1 + Kc).
Proof. intros H. unfold f_s. tab. interval with (i_bisect p, i_taylor p, i_depth 40). Qed.
Lemma psat_1 : 0.0006 < if97_psat (1 + Kc) < 0.001.
Proof. unfold if97_psat, Kc. cbv zeta. split; interval with (i_prec 100). Qed.
Lemma cold_wet p : 0.001 <= p <= 5 -> liquid p 1 /\ @ts RArith 1%R (ptR 1 OS p 1) (from_i32 OR) = 4.
Proof.
  intros Hp. pose proof psat_1 as Q. assert (Ht : 0 <= 1 <= 350) by lra.
  split. { unfold liquid. change (1 + 273.15) with (1 + Kc). lra. }
  rewrite ts_or. set (ps := if97_psat (1 + Kc)) in *.
  assert (W : forall x, ps <= x <= 5 -> wide1 x (1 + Kc)) by (intros x Hx; apply (w1 1 Ht); fold ps; lra).
  assert (S1 : ptR 1 OS ps 1 < ptR 1 OS p 1).
  { apply (incr_of (fun x => ptR 1 OS x 1) (fun x => - 1000 * ptR 1 ODVDT x 1) ps p); [lra| |].
    - intros x Hx. exact (dS_dp 1 x 1 (wide_dom _ _ _ (W x ltac:(lra)) eq_refl)).
    - intros x Hx. rewrite (a_dvdt _ _ _ (facts1 x 1 (wide_dom _ _ _ (W x ltac:(lra)) eq_refl))). pose proof (cold_dvdt x ltac:(lra)). lra. }
  pose proof (s1_lt p _ (W p ltac:(lra))) as U. change (@pT2s_reg1 RArith p (1 + Kc)%R) with (ptR 1 OS p 1) in U.
  assert (B : 4.5 < ptR 2 OS ps 1).
  { apply s2_big; [apply (w2 1 Ht); fold ps; lra|]. apply al0_min. unfold ps. left. apply psat_mono; unfold Kc; lra. }
  assert (L : -0.008583 <= ptR 1 OS p 1).
  { pose proof (cold_s p ltac:(lra)) as C. rewrite <- (a_s _ _ _ (facts1 p 1 (wide_dom _ _ _ (W p ltac:(lra)) eq_refl))) in C. lra. }
  apply (s_low_all 1 Ht); [lra|]. fold ps. lra.
Qed.
