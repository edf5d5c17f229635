(* The saturated states differ below 623.15 K, so the hypotheses about distinct saturated
   values hold there. *)
From Coq Require Import ZArith List Bool Reals Lra Lia.
From Coquelicot Require Import Coquelicot.
From Interval Require Import Tactic.
From Verif Require Import Num Algo Constant R4Sat Reg1 Reg2 Reg1Back Reg2Back Reg3Sub Reg3V Reg3 Reg4 Api RealInst RealSat RegionMap Spec SpecReal SpecSub3
  RSums Gibbs GibbsModel Sub3 SatInv SatApi Lever SpecWet LeverReal SatBand1 SatBand2.
Import ListNotations.
Open Scope R_scope.

Lemma at_sat p T : 0 < p <= 17 -> 273.14 <= T <= 623.16 -> bound1 p T -> bound2 p T ->
  gap (@pT_reg1 RArith p T OH) (@pT_reg2 RArith p T OH) (@pT_reg1 RArith p T OS) (@pT_reg2 RArith p T OS)
      (@pT_reg1 RArith p T OV) (@pT_reg2 RArith p T OV).
Proof.
  intros Hp HT (A1 & A2 & A3) (B1 & B2 & B3).
  assert (X : 71/10 - p/(1653/100) <> 0) by (apply Rgt_not_eq; interval).
  assert (Y : 13860/10/T - 1222/1000 <> 0) by (apply Rgt_not_eq; interval).
  assert (Z : 5400/10/T - 5/10 <> 0) by (apply Rgt_not_eq; interval).
  assert (P0 : p <> 0) by lra. assert (T0 : T <> 0) by lra.
  change (@pT_reg1 RArith p T OH) with (@pT2h_reg1 RArith p T). change (@pT_reg2 RArith p T OH) with (@pT2h_reg2 RArith p T).
  change (@pT_reg1 RArith p T OS) with (@pT2s_reg1 RArith p T). change (@pT_reg2 RArith p T OS) with (@pT2s_reg2 RArith p T).
  change (@pT_reg1 RArith p T OV) with (@pT2v_reg1 RArith p T). change (@pT_reg2 RArith p T OV) with (@pT2v_reg2 RArith p T).
  rewrite h1, s1, v1, h2, s2, v2 by assumption. unfold gap. lra.
Qed.
Lemma px_gap p : 0.000611212677444 <= p <= 16.5291642526045 ->
  gap (PX p 0 OH) (PX p 1 OH) (PX p 0 OS) (PX p 1 OS) (PX p 0 OV) (PX p 1 OV).
Proof.
  intros Hp. pose proof (in_px_R p (1/2) ltac:(lra) ltac:(lra)) as G. pose proof (inner_R (1/2) ltac:(lra)) as I.
  replace 0 with (@lit RArith (0.0%dec)) by (rnum; lra). replace 1 with (@lit RArith (1.0%dec)) by (rnum; lra).
  destruct (br_low p Hp) as (B1 & B2 & B3).
  destruct (px_low lits01_R p (1/2)%R OH ltac:(cbn; auto) G I B1 B2 B3) as (_ & -> & ->).
  destruct (px_low lits01_R p (1/2)%R OS ltac:(cbn; auto) G I B1 B2 B3) as (_ & -> & ->).
  destruct (px_low lits01_R p (1/2)%R OV ltac:(cbn; auto) G I B1 B2 B3) as (_ & -> & ->).
  rewrite tsat_real by lra. pose proof (tsat_low p Hp) as U. pose proof psat_273. pose proof psat_647. pose proof psat_623.
  destruct (Rle_dec (if97_psat 273.15) p) as [L|L].
  - destruct (psat_tsat p) as [A B]; [lra|]. apply at_sat; [lra|lra| |]; rewrite <- B at 1; [apply sat_bound1|apply sat_bound2]; lra.
  - assert (273.149 <= if97_tsat p <= 273.151).
    { assert (Hq : 0.0006112126 <= p <= 0.0006112127) by lra. clear - Hq. unfold if97_tsat. cbv zeta. interval with (i_prec 100). }
    apply at_sat; [lra|lra| |]; [apply low_bound1|apply low_bound2]; lra.
Qed.
Lemma tx_gap t : 273.15 <= t + 273.15 <= 623.15 ->
  gap (TX t 0 OH) (TX t 1 OH) (TX t 0 OS) (TX t 1 OS) (TX t 0 OV) (TX t 1 OV).
Proof.
  intros Hp. pose proof (in_tx_R (t + 273.15) (1/2) ltac:(lra) ltac:(lra)) as G. pose proof (inner_R (1/2) ltac:(lra)) as I.
  replace 0 with (@lit RArith (0.0%dec)) by (rnum; lra). replace 1 with (@lit RArith (1.0%dec)) by (rnum; lra).
  assert (C : @ltb RArith (@nabs RArith (@sub RArith (t + 273.15)%R TC_WATER)) FLOAT_ERROR = false).
  { unfold TC_WATER, FLOAT_ERROR. rnum. apply Rlt_b_false. rewrite Rabs_left1; lra. }
  assert (B1 : @ltb RArith (@lit RArith (623.15%dec)) (t + 273.15)%R = false) by (rnum; apply Rlt_b_false; lra).
  assert (B2 : @leb RArith (t + 273.15)%R (@lit RArith (623.15%dec)) = true) by (rnum; apply Rle_b_true; lra).
  destruct (tx_low lits01_R t (1/2)%R OH ltac:(cbn; auto) G I B1 B2 C) as (_ & -> & ->).
  destruct (tx_low lits01_R t (1/2)%R OS ltac:(cbn; auto) G I B1 B2 C) as (_ & -> & ->).
  destruct (tx_low lits01_R t (1/2)%R OV ltac:(cbn; auto) G I B1 B2 C) as (_ & -> & ->).
  change (@add RArith t (@lit RArith (273.15%dec))) with (t + 273.15).
  rewrite psat_real by lra.
  pose proof (psat_pos (t + 273.15) ltac:(lra)). pose proof psat_623. 
  assert (if97_psat (t + 273.15) <= if97_psat 623.15).
  { destruct (proj2 Hp) as [L|L]; [apply Rlt_le, psat_mono; lra|rewrite L; apply Rle_refl]. }
  apply at_sat; [lra|lra|apply sat_bound1; lra|apply sat_bound2; lra].
Qed.

(* consequences *)
Lemma px_quality fuel f o p x : In (f, o) [(PH, OH); (PS, OS); (PV, OV)] -> 0.000611212677444 <= p <= 16.5291642526045 -> 0 <= x <= 1 ->
  @call RArith fuel f p (PX p x o) (from_pair (OX, 4%Z)) = Some x.
Proof.
  intros Hf Hp Hx. apply (p_quality fuel f o p x Hf (or_introl Hp) Hx).
  destruct (px_gap p Hp) as (A & B & C & D). cbn [In] in Hf; destruct Hf as [E|[E|[E|[]]]]; injection E as <- <-; lra.
Qed.
Lemma tx_quality fuel f o t x : In (f, o) [(TH, OH); (TS, OS); (TV, OV)] -> 273.15 <= t + 273.15 <= 623.15 -> 0 <= x <= 1 ->
  @call RArith fuel f t (TX t x o) (from_pair (OX, 4%Z)) = Some x.
Proof.
  intros Hf Hp Hx. apply (t_quality fuel f o t x Hf); [unfold wet_T; lra|assumption|].
  destruct (tx_gap t Hp) as (A & B & C & D). cbn [In] in Hf; destruct Hf as [E|[E|[E|[]]]]; injection E as <- <-; lra.
Qed.
Lemma px_od p x : 0.000611212677444 <= p <= 16.5291642526045 -> 0 < x < 1 -> 1 < PX p x OD * PX p x OV.
Proof.
  intros Hp Hx. destruct (px_gap p Hp) as (_ & _ & C & D). rewrite px_density_volume by (assumption || lra).
  assert (0 < x * (1 - x)) by nra.
  assert (0 < (PX p 1 OV - PX p 0 OV) ^ 2) by (apply pow_lt; lra).
  assert (0 < PX p 0 OV * PX p 1 OV) by (apply Rmult_lt_0_compat; lra).
  assert (0 < x * (1 - x) * (PX p 1 OV - PX p 0 OV) ^ 2 / (PX p 0 OV * PX p 1 OV)) by (apply Rdiv_lt_0_compat; [apply Rmult_lt_0_compat; assumption|assumption]).
  lra.
Qed.

(* between 623.15 K and the critical point the mixed density is the error code; it is not between the saturated ones *)
Lemma od_hot_refuted : exists p x, wet_p p /\ 0 < x < 1 /\ 0 < PX p 0 OD /\ 0 < PX p 1 OD /\ PX p x OD = -1000 /\
  ~ lever x (PX p 0 OD) (PX p 1 OD) (PX p x OD).
Proof.
  exists 18, (1/2)%R. pose proof psat_623 as HP.
  assert (W : if97_psat 623.15 < 18 <= 22.064 - 1e-6) by lra. clear HP.
  assert (E : PX 18 (1/2)%R OD = -1000) by (apply px_density_hot; lra).
  pose proof (in_px_R 18 (1/2) ltac:(lra) ltac:(lra)) as G. pose proof (inner_R (1/2) ltac:(lra)) as I.
  destruct (px_mid lits01_R 18 (1/2)%R OD G I eq_refl eq_refl) as (_ & E0 & E1).
  destruct (br_high 18 W) as (_ & B2 & B3).
  assert (T18 : 630.13 <= @T_saturation RArith 18 <= 630.15).
  { rewrite tsat_real by lra. clear. unfold if97_tsat. cbv zeta. split; interval with (i_prec 100). }
  assert (V0 : 0 < PX 18 0 OD).
  { replace 0 with (@lit RArith (0.0%dec)) at 2 by (rnum; lra). rewrite E0. clear E E0 E1 G I.
    unfold p2sat_water. rewrite B2, B3, andb_false_r. change (Z.eqb OD OP) with false. change (Z.eqb OD OT) with false.
    change (Z.eqb OD OV) with false. change (Z.eqb OD OD) with true. cbv beta iota zeta. clear B2 B3 W.
    revert T18. generalize (@T_saturation RArith 18). intros T HT.
    change (@div RArith (lit (1.0%dec)) (@pT2v_sat_reg3 RArith 18 T (lit (0.0%dec)))) with (10 / 10 / @pT2v_sat_reg3 RArith 18 T (lit (0.0%dec))).
    apply Rdiv_lt_0_compat; [lra|].
    unfold pT2v_sat_reg3. cbv zeta. rewrite (proj1 lits01_R).
    replace (@ltb RArith 18 (lit (19.0088%dec))) with true by (symmetry; rnum; apply Rlt_b_true; lra).
    change (@pT2v_3subreg RArith 18 T Types.sub_c) with (@pT2v_3c RArith 18 T). unfold pT2v_3c. sum3. interval. }
  assert (V1 : 0 < PX 18 1 OD).
  { replace 1 with (@lit RArith (1.0%dec)) at 1 by (rnum; lra). rewrite E1. clear E E0 E1 G I V0.
    unfold p2sat_steam. rewrite B2, B3, andb_false_r. change (Z.eqb OD OP) with false. change (Z.eqb OD OT) with false.
    change (Z.eqb OD OV) with false. change (Z.eqb OD OD) with true. cbv beta iota zeta. clear B2 B3 W.
    revert T18. generalize (@T_saturation RArith 18). intros T HT.
    change (@div RArith (lit (1.0%dec)) (@pT2v_sat_reg3 RArith 18 T (lit (1.0%dec)))) with (10 / 10 / @pT2v_sat_reg3 RArith 18 T (lit (1.0%dec))).
    apply Rdiv_lt_0_compat; [lra|].
    unfold pT2v_sat_reg3. cbv zeta. rewrite (proj1 (proj2 lits01_R)).
    replace (@ltb RArith 18 (lit (20.5%dec))) with true by (symmetry; rnum; apply Rlt_b_true; lra).
    change (@pT2v_3subreg RArith 18 T Types.sub_t) with (@pT2v_3t RArith 18 T). unfold pT2v_3t. sum3. cbv beta iota zeta delta [poly_powi fold_left row_n row_i row_j fst snd pT2v_3t_IJn]; rnum. interval. }
  split; [right; exact W|]. split; [lra|]. split; [exact V0|]. split; [exact V1|]. split; [exact E|].
  intros [L _]. rewrite E in L. lra.
Qed.
Lemma px_od_ex : exists p x, wet_p p /\ 0 < x < 1 /\ PX p x OD * PX p x OV <> 1.
Proof.
  exists 1, (1/2)%R. split; [left; lra|]. split; [lra|].
  pose proof (px_od 1 (1/2)%R ltac:(lra) ltac:(lra)). apply Rgt_not_eq. assumption.
Qed.
