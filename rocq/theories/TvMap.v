(* The region map of tv on an isotherm: which volumes are given to which region. *)
From Coq Require Import ZArith Reals List Bool Lra Lia.
From Coquelicot Require Import Coquelicot.
From Verif Require Import RegionMap SpecSub3 Num RealInst Constant R4Sat Reg1 Reg2 Reg5 Boundaries Reg1Back Reg2Back Reg3V Reg3 Reg4 Region Api Spec SpecReal SpecWet SatInv RealSat SatApi LeverReal SatBand1 SatBand2 WetGap RSums Gibbs GibbsModel
  SpecThermo ThermoApi SpecStable SpecSteam SpecGas SpecMap Stab1 Stab2 Stab5 Back2 Map12.
Open Scope R_scope.

(* strictly decreasing functions with a derivative take every value between *)
Lemma onto_decr (f df : R -> R) a b v : a <= b -> (forall x, a <= x <= b -> is_derive f x (df x)) -> f b <= v <= f a -> exists x, a <= x <= b /\ f x = v.
Proof.
  intros L D [A B]. destruct (onto (fun x => - f x) (fun x => - df x) a b (- v)) as (x & X1 & X2); [exact L| |lra|].
  - intros x Hx. exact (dopp _ _ _ (D x Hx)).
  - exists x. split; [exact X1|lra].
Qed.
Section Iso.
Variables (f df : R -> R) (a b : R).
Hypothesis L : a < b.
Hypothesis D : forall x, a <= x <= b -> is_derive f x (df x).
Hypothesis M : forall x y, a <= x -> x < y -> y <= b -> f y < f x.
Lemma span_open v : f b < v < f a <-> exists x, a < x < b /\ v = f x.
Proof.
  split.
  - intros H. destruct (onto_decr f df a b v ltac:(lra) D ltac:(lra)) as (x & X & <-). exists x. split; [|reflexivity].
    split; [destruct (proj1 X) as [E|E]|destruct (proj2 X) as [E|E]]; try exact E; subst; lra.
  - intros (x & [X Y] & ->). split; apply M; lra.
Qed.
Lemma span_half v : f b <= v < f a <-> exists x, a < x <= b /\ v = f x.
Proof.
  split.
  - intros H. destruct (onto_decr f df a b v ltac:(lra) D ltac:(lra)) as (x & X & <-). exists x. split; [|reflexivity].
    split; [destruct (proj1 X) as [E|E]|lra]; try exact E; subst; lra.
  - intros (x & [X Y] & ->). split; [destruct Y as [Y| ->]; [left; apply M; lra|apply Rle_refl]|apply M; lra].
Qed.
Lemma span v : f b <= v <= f a <-> exists x, a <= x <= b /\ v = f x.
Proof.
  split.
  - intros H. destruct (onto_decr f df a b v ltac:(lra) D ltac:(lra)) as (x & X & <-). exists x. split; [exact X|reflexivity].
  - intros (x & [X Y] & ->). split; [destruct Y as [Y| ->]|destruct X as [X| <-]]; try apply Rle_refl; left; apply M; lra.
Qed.
End Iso.

(* comparisons of the temperature first *)
Ltac tcases T := repeat (match goal with
  | |- context [Rle_dec T (?a / ?b)] => destruct (Rle_dec T (a / b))
  | |- context [Rle_dec (?a / ?b) T] => destruct (Rle_dec (a / b) T)
  | |- context [Rlt_dec T (?a / ?b)] => destruct (Rlt_dec T (a / b))
  | |- context [Rlt_dec (?a / ?b) T] => destruct (Rlt_dec (a / b) T) end; try (exfalso; lra)); cbn [andb orb].
Lemma tv_or fuel t v : @tv RArith fuel t v (from_i32 OR) = Some (IZR (@tv_sub_region RArith t v)). Proof. reflexivity. Qed.

(* up to 350 C *)
Section Low.
Variable t : R.
Hypothesis H : 0 <= t <= 350.
Let T := t + Kc.
Let ps := if97_psat T.
Lemma T_range : 273.15 <= T <= 623.15. Proof. unfold T, Kc. lra. Qed.
Lemma ps_range : 0.0006 < ps < 17.
Proof.
  pose proof T_range as R. unfold ps. pose proof psat_273. pose proof Stab1.psat_623. split.
  - destruct (proj1 R) as [E| <-]; [|lra]. pose proof (psat_mono 273.15 T ltac:(lra) E ltac:(lra)). lra.
  - destruct (proj2 R) as [E| ->]; [|lra]. pose proof (psat_mono T 623.15 ltac:(lra) E ltac:(lra)). lra.
Qed.
Lemma w1 p : ps <= p <= 100 -> wide1 p T. Proof. intros. split; [exact T_range|]. fold ps. lra. Qed.
Lemma w2 p : 0 < p <= ps -> wide2 p T.
Proof. intros. pose proof T_range. pose proof ps_range. split; [lra|]. split; [lra|]. split; [intros; fold ps; lra|intros; lra]. Qed.
Lemma water_code : @T2sat_water RArith T OV = ptR 1 OV ps t /\ @T2sat_steam RArith T OV = ptR 2 OV ps t.
Proof.
  pose proof T_range as R.
  assert (C : @ltb RArith (@nabs RArith (@sub RArith T TC_WATER)) FLOAT_ERROR = false).
  { unfold TC_WATER, FLOAT_ERROR. rnum. apply Rlt_b_false. rewrite Rabs_left1; lra. }
  assert (B2 : @leb RArith T (@lit RArith (623.15%dec)) = true) by (rnum; apply Rle_b_true; lra).
  unfold T2sat_water, T2sat_steam. change (Z.eqb OV OT) with false. change (Z.eqb OV OP) with false. cbv iota zeta. rewrite C, B2. cbv iota.
  rewrite psat_real by lra. split; reflexivity.
Qed.
Lemma v_gap : ptR 1 OV ps t < ptR 2 OV ps t.
Proof.
  pose proof T_range as R. pose proof ps_range as P.
  pose proof (at_sat ps T ltac:(lra) ltac:(lra) (sat_bound1 T ltac:(lra)) (sat_bound2 T ltac:(lra))) as (_ & _ & _ & G).
  change (@pT_reg1 RArith ps T OV) with (ptR 1 OV ps t) in G. change (@pT_reg2 RArith ps T OV) with (ptR 2 OV ps t) in G. lra.
Qed.
Lemma v_ends : ptR 1 OV 100 t < ptR 1 OV ps t /\ ptR 2 OV ps t < ptR 2 OV 1e-8 t.
Proof.
  pose proof ps_range as P. split.
  - apply v_decr1; [apply w1; lra|lra|lra].
  - apply v_decr2; [lra|lra|apply w2; lra].
Qed.
Definition isotherm (v a b c d : R) : Z :=
  if Rle_dec v a then INVALID_VALUE else if Rlt_dec v b then 1%Z else if Rle_dec v c then 4%Z else if Rlt_dec v d then 2%Z else INVALID_VALUE.
Lemma tv_isotherm v : @tv_sub_region RArith t v = isotherm v (ptR 1 OV 100 t) (ptR 1 OV ps t) (ptR 2 OV ps t) (ptR 2 OV 1e-8 t).
Proof.
  pose proof T_range as R. pose proof v_gap as G. destruct v_ends as [E1 E2]. destruct water_code as [W1 W2].
  unfold isotherm, tv_sub_region. cbv zeta.
  change (@add RArith t (@lit RArith (273.15%dec))) with T. rewrite W1, W2.
  change (ptR 1 OV 100 t) with (@pT2v_reg1 RArith 100%R T) in *. change (ptR 2 OV 1e-8 t) with (@pT2v_reg2 RArith 1e-8%R T) in *.
  assert (E100 : @lit RArith (100.0%dec) = 100%R) by (rnum; lra). assert (E8 : @P_MIN2 RArith = 1e-8%R) by (unfold P_MIN2; rnum; lra). rewrite E100, E8.
  set (f1 := @pT2v_reg1 RArith) in *. set (f2 := @pT2v_reg2 RArith) in *. set (f3 := @pT2v_reg3 RArith). set (f5 := @pT2v_reg5 RArith).
  set (a := f1 100%R T) in *. set (b := ptR 1 OV ps t) in *. set (c := ptR 2 OV ps t) in *. set (d := f2 1e-8%R T) in *.
  set (bp := @B23_T2p RArith). set (psa := @p_saturation RArith). set (vs3 := @pT2v_sat_reg3 RArith).
  clearbody f1 f2 f3 f5 a b c d bp psa vs3 T. clear H W1 W2 E100 E8.
  unfold T_MIN1, T_MAX1, T_MIN2, T_MAX2, T_MIN3, T_MAX3, T_MIN5, T_MAX5, TC_WATER. rnum.
  unfold Rle_b, Rlt_b. tcases T; cases.
Qed.
Lemma low_all v :
  (IZR (@tv_sub_region RArith t v) = 1 <-> ptR 1 OV 100 t < v < ptR 1 OV ps t) /\
  (IZR (@tv_sub_region RArith t v) = 2 <-> ptR 2 OV ps t < v < ptR 2 OV 1e-8 t) /\
  (IZR (@tv_sub_region RArith t v) = 4 <-> ptR 1 OV ps t <= v <= ptR 2 OV ps t) /\
  (IZR (@tv_sub_region RArith t v) = -9999 <-> v <= ptR 1 OV 100 t \/ ptR 2 OV 1e-8 t <= v).
Proof.
  pose proof v_gap as G. destruct v_ends as [E1 E2]. rewrite tv_isotherm. unfold isotherm. change INVALID_VALUE with (-9999)%Z.
  repeat match goal with
  | |- context [if Rle_dec ?x ?y then _ else _] => destruct (Rle_dec x y)
  | |- context [if Rlt_dec ?x ?y then _ else _] => destruct (Rlt_dec x y) end; repeat split; intros; try lra; intuition lra.
Qed.
Lemma tv_is1 v : IZR (@tv_sub_region RArith t v) = 1 <-> exists p, if97_psat (t + 273.15) < p < 100 /\ v = ptR 1 OV p t.
Proof.
  rewrite (proj1 (low_all v)). change (if97_psat (t + 273.15)) with ps. pose proof ps_range. apply (span_open (fun p => ptR 1 OV p t) (fun p => ptR 1 ODVDP p t) ps 100); [lra| |].
  - intros p Hp. exact (dV_dp 1 p t (wide_dom _ _ _ (w1 p Hp) eq_refl)).
  - intros x y A B C. apply v_decr1; [apply w1; lra|lra|lra].
Qed.
Lemma tv_is2 v : IZR (@tv_sub_region RArith t v) = 2 <-> exists p, 1e-8 < p < if97_psat (t + 273.15) /\ v = ptR 2 OV p t.
Proof.
  rewrite (proj1 (proj2 (low_all v))). change (if97_psat (t + 273.15)) with ps. pose proof ps_range. apply (span_open (fun p => ptR 2 OV p t) (fun p => ptR 2 ODVDP p t) 1e-8 ps); [lra| |].
  - intros p Hp. exact (dV_dp 2 p t (wide2_dom _ _ _ (w2 p ltac:(lra)) eq_refl)).
  - intros x y A B C. apply v_decr2; [lra|lra|apply w2; lra].
Qed.
End Low.

(* 350 to 590 C: the vapour next to region 3 *)
Section Mid.
Variable t : R.
Hypothesis H : 350 < t <= 590.
Let T := t + Kc.
Let pb := if97_b23 T.
Hypothesis Hb : if97_b23 (t + 273.15) <= 100.
Lemma TB_range : 623.15 < T <= 863.15. Proof. unfold T, Kc. lra. Qed.
Lemma pb_range : 10 < pb <= 100.
Proof. pose proof TB_range as R. split; [|exact Hb]. unfold pb, if97_b23. nra. Qed.
Lemma wm p : 0 < p <= pb -> wide2 p T.
Proof. intros. pose proof TB_range. pose proof pb_range. split; [lra|]. split; [lra|]. split; [intros; lra|intros; fold pb; lra]. Qed.
Lemma mid_all v : IZR (@tv_sub_region RArith t v) = 2 <-> ptR 2 OV pb t <= v < ptR 2 OV 1e-8 t.
Proof.
  pose proof TB_range as R. unfold tv_sub_region. cbv zeta. change (@add RArith t (@lit RArith (273.15%dec))) with T.
  change (ptR 2 OV pb t) with (@pT2v_reg2 RArith pb T). change (ptR 2 OV 1e-8 t) with (@pT2v_reg2 RArith 1e-8%R T).
  assert (E8 : @P_MIN2 RArith = 1e-8%R) by (unfold P_MIN2; rnum; lra). rewrite E8. replace (@B23_T2p RArith T) with pb by (symmetry; apply b23_real).
  set (f1 := @pT2v_reg1 RArith). set (f2 := @pT2v_reg2 RArith). set (f3 := @pT2v_reg3 RArith). set (f5 := @pT2v_reg5 RArith).
  set (psa := @p_saturation RArith). set (vs3 := @pT2v_sat_reg3 RArith). set (sw := @T2sat_water RArith). set (ss := @T2sat_steam RArith).
  set (c := f2 pb T). set (d := f2 1e-8%R T).
  clearbody f1 f2 f3 f5 c d psa vs3 sw ss pb T. clear H Hb E8.
  unfold T_MIN1, T_MAX1, T_MIN2, T_MAX2, T_MIN3, T_MAX3, T_MIN5, T_MAX5, TC_WATER. rnum.
  unfold Rle_b, Rlt_b. tcases T;
  repeat (match goal with
  | |- context [Rle_dec ?x ?y] => destruct (Rle_dec x y)
  | |- context [Rlt_dec ?x ?y] => destruct (Rlt_dec x y) end; cbn [andb orb]); change INVALID_VALUE with (-9999)%Z; split; intros; lra.
Qed.
Lemma tv_is2m v : IZR (@tv_sub_region RArith t v) = 2 <-> exists p, 1e-8 < p <= if97_b23 (t + 273.15) /\ v = ptR 2 OV p t.
Proof.
  rewrite (mid_all v). change (if97_b23 (t + 273.15)) with pb. pose proof pb_range. apply (span_half (fun p => ptR 2 OV p t) (fun p => ptR 2 ODVDP p t) 1e-8 pb); [lra| |].
  - intros p Hp. exact (dV_dp 2 p t (wide2_dom _ _ _ (wm p ltac:(lra)) eq_refl)).
  - intros x y A B C. apply v_decr2; [lra|lra|apply wm; lra].
Qed.
End Mid.

(* region 5 *)
Section Hot.
Variable t : R.
Hypothesis H : 800 < t <= 2000.
Let T := t + Kc.
Let p5 := 0.000611212677444.
Lemma hot_iso v : @tv_sub_region RArith t v = if Rle_dec (ptR 5 OV 50 t) v then if Rle_dec v (ptR 5 OV p5 t) then 5%Z else INVALID_VALUE else INVALID_VALUE.
Proof.
  assert (R : 1073.15 < T <= 2273.15) by (unfold T, Kc; lra). unfold tv_sub_region. cbv zeta. change (@add RArith t (@lit RArith (273.15%dec))) with T.
  change (ptR 5 OV 50 t) with (@pT2v_reg5 RArith 50%R T). change (ptR 5 OV p5 t) with (@pT2v_reg5 RArith p5 T).
  assert (E8 : @P_MIN5 RArith = p5) by (unfold P_MIN5, p5; rnum; lra). assert (E50 : @lit RArith (50.0%dec) = 50%R) by (rnum; lra). rewrite E8, E50.
  set (f1 := @pT2v_reg1 RArith). set (f2 := @pT2v_reg2 RArith). set (f3 := @pT2v_reg3 RArith). set (f5 := @pT2v_reg5 RArith).
  set (psa := @p_saturation RArith). set (vs3 := @pT2v_sat_reg3 RArith). set (sw := @T2sat_water RArith). set (ss := @T2sat_steam RArith). set (bp := @B23_T2p RArith).
  set (c := f5 50%R T). set (d := f5 p5 T).
  clearbody f1 f2 f3 f5 c d psa vs3 sw ss bp T. clear H E8 E50.
  unfold T_MIN1, T_MAX1, T_MIN2, T_MAX2, T_MIN3, T_MAX3, T_MIN5, T_MAX5, TC_WATER. rnum.
  unfold Rle_b, Rlt_b. tcases T; cases.
Qed.
Lemma hot_all v :
  (IZR (@tv_sub_region RArith t v) = 5 <-> ptR 5 OV 50 t <= v <= ptR 5 OV p5 t) /\
  (IZR (@tv_sub_region RArith t v) = -9999 <-> v < ptR 5 OV 50 t \/ ptR 5 OV p5 t < v).
Proof.
  rewrite hot_iso. change INVALID_VALUE with (-9999)%Z.
  repeat match goal with |- context [if Rle_dec ?x ?y then _ else _] => destruct (Rle_dec x y) end; repeat split; intros; try lra; intuition lra.
Qed.
Lemma tv_is5 v : IZR (@tv_sub_region RArith t v) = 5 <-> exists p, 0.000611212677444 <= p <= 50 /\ v = ptR 5 OV p t.
Proof.
  rewrite (proj1 (hot_all v)). apply (span (fun p => ptR 5 OV p t) (fun p => ptR 5 ODVDP p t) p5 50); [unfold p5; lra| |].
  - intros p Hp. apply (dV_dp 5 p t). apply dom5_gas. unfold hot_gas, p5 in *. lra.
  - intros x y A B C. apply v_decr5; [unfold p5 in *; lra|lra|unfold hot_gas, p5 in *; lra].
Qed.
End Hot.
