(* The mixture rule over R. *)
From Coq Require Import ZArith List Bool Reals Lra Lia.
From Coquelicot Require Import Coquelicot.
From Interval Require Import Tactic.
From Verif Require Import Num Constant R4Sat Reg1 Reg2 Reg1Back Reg2Back Reg3V Reg3 Reg4 Region Api RealInst RealSat RegionMap Spec SpecReal SpecSub3
  Sub3 SatInv SatApi Lever SpecWet.
Import ListNotations.
Open Scope R_scope.

Lemma lits01_R : @lits01 RArith.
Proof.
  repeat split; rnum; unfold Req_b; try (destruct (Req_EM_T _ _) as [E|E]; try reflexivity; exfalso; lra);
    try (apply Rlt_b_false; lra).
Qed.
Lemma inner_R x : 0 < x < 1 -> @inner RArith x.
Proof. intros H. split; rnum; unfold Req_b; destruct (Req_EM_T _ _); try reflexivity; exfalso; lra. Qed.
Lemma in_px_R p x : 0.000611212677444 <= p <= 22.064 -> 0 <= x <= 1 -> @in_px RArith p x.
Proof. intros Hp Hx. unfold in_px, P_MAX4, P_MIN4. repeat split; rnum; apply Rlt_b_false; lra. Qed.
Lemma in_tx_R T x : 273.15 <= T <= 647.096 -> 0 <= x <= 1 -> @in_tx RArith T x.
Proof. intros Hp Hx. unfold in_tx, T_MAX4, T_MIN4. repeat split; rnum; apply Rlt_b_false; lra. Qed.

Lemma psat_623 : 16.5291642526046 < if97_psat 623.15 < 16.5291642526047.
Proof. unfold if97_psat. cbv zeta. split; interval with (i_prec 100). Qed.
Lemma tsat_low p : 0.000611212677444 <= p <= 16.5291642526045 -> if97_tsat p <= 623.15.
Proof.
  intros Hp. pose proof psat_273. pose proof psat_647. pose proof psat_623.
  destruct (Rle_dec (if97_psat 273.15) p) as [L|L].
  - destruct (psat_tsat p) as [A B]; [lra|].
    destruct (Rle_dec (if97_tsat p) 623.15) as [|G]; [assumption|exfalso].
    pose proof (psat_mono 623.15 (if97_tsat p) ltac:(lra) ltac:(lra) ltac:(lra)). lra.
  - assert (0.000611212677444 <= p <= 0.00061121267744435) by lra. clear - H2.
    unfold if97_tsat. cbv zeta. interval.
Qed.
Lemma tsat_high p : if97_psat 623.15 < p <= 22.064 -> 623.15 < if97_tsat p.
Proof.
  intros Hp. pose proof psat_273. pose proof psat_647. pose proof psat_623.
  destruct (psat_tsat p) as [A B]; [lra|].
  destruct (Rlt_dec 623.15 (if97_tsat p)) as [|G]; [assumption|exfalso].
  destruct (Rle_lt_or_eq_dec (if97_tsat p) 623.15) as [L|L]; [lra| |].
  - pose proof (psat_mono (if97_tsat p) 623.15 ltac:(lra) L ltac:(lra)). lra.
  - rewrite L in B. lra.
Qed.

(* the branch conditions *)
Lemma br_low p : 0.000611212677444 <= p <= 16.5291642526045 ->
  (@ltb RArith (@lit RArith (623.15%dec)) (@T_saturation RArith p)) = false /\ @leb RArith P_MIN p = true /\ @leb RArith p Ps_623 = true.
Proof.
  intros Hp. rewrite tsat_real by lra. pose proof (tsat_low p Hp). unfold P_MIN, Ps_623.
  repeat split; rnum; [apply Rlt_b_false|apply Rle_b_true|apply Rle_b_true]; lra.
Qed.
Lemma br_high p : if97_psat 623.15 < p <= 22.064 - 1e-6 ->
  (@ltb RArith (@lit RArith (623.15%dec)) (@T_saturation RArith p)) = true /\ @leb RArith p Ps_623 = false /\
  @ltb RArith (@nabs RArith (@sub RArith p PC_WATER)) FLOAT_ERROR = false.
Proof.
  intros Hp. pose proof psat_623. rewrite tsat_real by lra. pose proof (tsat_high p ltac:(lra)). unfold PC_WATER, FLOAT_ERROR, Ps_623.
  repeat split; rnum; [apply Rlt_b_true|apply Rle_b_false|apply Rlt_b_false]; try lra.
  rewrite Rabs_left1 by lra. lra.
Qed.
Lemma wet_p_range p : wet_p p -> 0.000611212677444 <= p <= 22.064.
Proof. intros [H|H]; pose proof psat_623; lra. Qed.

Lemma lever_intro x a b y : 0 <= x <= 1 -> y = a + x * (b - a) -> lever x a b y.
Proof.
  intros Hx E. split; [assumption|]. unfold Rmin, Rmax. destruct (Rle_dec a b); nra.
Qed.
Lemma inv_inv v : @div RArith (@lit RArith (1.0%dec)) (@div RArith (@lit RArith (1.0%dec)) v) = v.
Proof. rnum. unfold Rdiv. replace (10 * / 10) with 1 by lra. rewrite !Rmult_1_l. apply Rinv_inv. Qed.

Lemma px_lever p x o : wet_p p -> 0 < x < 1 -> In o (OV :: energy_ids) -> lever x (PX p 0 o) (PX p 1 o) (PX p x o).
Proof.
  intros Hp Hx Ho. apply lever_intro; [lra|].
  pose proof (in_px_R p x (wet_p_range p Hp) ltac:(lra)) as G. pose proof (inner_R x Hx) as I.
  replace 0 with (@lit RArith (0.0%dec)) by (rnum; lra). replace 1 with (@lit RArith (1.0%dec)) by (rnum; lra).
  destruct Hp as [Hp|Hp].
  - destruct (br_low p Hp) as (B1 & B2 & B3).
    refine (proj1 (px_low lits01_R p x o _ G I B1 B2 B3)). destruct Ho; [left|right;right]; assumption.
  - destruct (br_high p Hp) as (B1 & B2 & B3). destruct Ho as [<-|Ho].
    + destruct (px_high_v lits01_R p x G I B1 B2 B3) as [E _]. rewrite !inv_inv in E. exact E.
    + exact (px_high_lin lits01_R p x o Ho G I B1 B2 B3).
Qed.
Lemma tx_lever t x o : wet_T (t + 273.15) -> 0 < x < 1 -> In o (OV :: energy_ids) -> lever x (TX t 0 o) (TX t 1 o) (TX t x o).
Proof.
  intros Hp Hx Ho. apply lever_intro; [lra|]. unfold wet_T in Hp.
  pose proof (in_tx_R (t + 273.15) x ltac:(lra) ltac:(lra)) as G. pose proof (inner_R x Hx) as I.
  replace 0 with (@lit RArith (0.0%dec)) by (rnum; lra). replace 1 with (@lit RArith (1.0%dec)) by (rnum; lra).
  assert (C : @ltb RArith (@nabs RArith (@sub RArith (t + 273.15)%R TC_WATER)) FLOAT_ERROR = false).
  { unfold TC_WATER, FLOAT_ERROR. rnum. apply Rlt_b_false. rewrite Rabs_left1; lra. }
  destruct (Rle_dec (t + 273.15) 623.15) as [L|L].
  - assert (B1 : @ltb RArith (@lit RArith (623.15%dec)) (t + 273.15)%R = false) by (rnum; apply Rlt_b_false; lra).
    assert (B2 : @leb RArith (t + 273.15)%R (@lit RArith (623.15%dec)) = true) by (rnum; apply Rle_b_true; lra).
    refine (proj1 (tx_low lits01_R t x o _ G I B1 B2 C)). destruct Ho; [left|right;right]; assumption.
  - assert (B1 : @ltb RArith (@lit RArith (623.15%dec)) (t + 273.15)%R = true) by (rnum; apply Rlt_b_true; lra).
    assert (B2 : @leb RArith (t + 273.15)%R (@lit RArith (623.15%dec)) = false) by (rnum; apply Rle_b_false; lra).
    destruct Ho as [<-|Ho].
    + destruct (tx_high_v lits01_R t x G I B1 B2 C) as [E _]. rewrite !inv_inv in E. exact E.
    + exact (tx_high_lin lits01_R t x o Ho G I B1 B2 C).
Qed.

(* density *)
Lemma px_density p x : 0.000611212677444 <= p <= 16.5291642526045 -> 0 < x < 1 ->
  PX p x OD = / PX p 0 OV + x * (/ PX p 1 OV - / PX p 0 OV).
Proof.
  intros Hp Hx. pose proof (in_px_R p x ltac:(lra) ltac:(lra)) as G. pose proof (inner_R x Hx) as I.
  replace 0 with (@lit RArith (0.0%dec)) by (rnum; lra). replace 1 with (@lit RArith (1.0%dec)) by (rnum; lra).
  destruct (br_low p Hp) as (B1 & B2 & B3).
  destruct (px_low lits01_R p x OD ltac:(cbn; auto) G I B1 B2 B3) as (E & E0 & E1).
  destruct (px_low lits01_R p x OV ltac:(cbn; auto) G I B1 B2 B3) as (_ & F0 & F1).
  rewrite E, E0, E1, F0, F1. 
  change (@pT_reg1 RArith p (@T_saturation RArith p) OD) with (@div RArith (@lit RArith (1.0%dec)) (@pT_reg1 RArith p (@T_saturation RArith p) OV)).
  change (@pT_reg2 RArith p (@T_saturation RArith p) OD) with (@div RArith (@lit RArith (1.0%dec)) (@pT_reg2 RArith p (@T_saturation RArith p) OV)).
  rnum. unfold Rdiv. replace (10 * / 10) with 1 by lra. rewrite !Rmult_1_l. reflexivity.
Qed.
Lemma px_density_volume p x : 0.000611212677444 <= p <= 16.5291642526045 -> 0 < x < 1 ->
  PX p 0 OV <> 0 -> PX p 1 OV <> 0 ->
  PX p x OD * PX p x OV = 1 + x * (1 - x) * (PX p 1 OV - PX p 0 OV) ^ 2 / (PX p 0 OV * PX p 1 OV).
Proof.
  intros Hp Hx N0 N1. rewrite px_density by assumption.
  destruct (px_lever p x OV (or_introl Hp) Hx ltac:(cbn; auto)) as [-> _]. field. auto.
Qed.
Lemma px_density_iff p x : 0.000611212677444 <= p <= 16.5291642526045 -> 0 < x < 1 ->
  PX p 0 OV <> 0 -> PX p 1 OV <> 0 -> (PX p x OD * PX p x OV = 1 <-> PX p 0 OV = PX p 1 OV).
Proof.
  intros Hp Hx N0 N1. rewrite px_density_volume by assumption. split; intros E.
  - assert (Z : x * (1 - x) * (PX p 1 OV - PX p 0 OV) ^ 2 = 0).
    { apply Rmult_eq_reg_r with (/ (PX p 0 OV * PX p 1 OV)); [unfold Rdiv in E; lra|]. apply Rinv_neq_0_compat. now apply Rmult_integral_contrapositive. }
    assert (W : (PX p 1 OV - PX p 0 OV) ^ 2 = 0) by (apply Rmult_integral in Z; destruct Z as [Z|Z]; [nra|exact Z]).
    assert (PX p 1 OV - PX p 0 OV = 0) by (apply Rsqr_0_uniq; unfold Rsqr; lra). lra.
  - rewrite E. field. auto.
Qed.
Lemma px_density_hot p x : if97_psat 623.15 < p <= 22.064 - 1e-6 -> 0 < x < 1 -> PX p x OD = -1000.
Proof.
  intros Hp Hx. pose proof psat_623. pose proof (in_px_R p x ltac:(lra) ltac:(lra)) as G. pose proof (inner_R x Hx) as I.
  destruct (br_high p Hp) as (B1 & B2 & B3).
  destruct (px_high_v lits01_R p x G I B1 B2 B3) as [_ E]. rewrite E. rnum. unfold INVALID_OUTID. lra.
Qed.
Lemma tx_density_hot t x : 623.15 < t + 273.15 <= 647.096 - 1e-6 -> 0 < x < 1 -> TX t x OD = -1000.
Proof.
  intros Hp Hx. pose proof (in_tx_R (t + 273.15) x ltac:(lra) ltac:(lra)) as G. pose proof (inner_R x Hx) as I.
  assert (C : @ltb RArith (@nabs RArith (@sub RArith (t + 273.15)%R TC_WATER)) FLOAT_ERROR = false).
  { unfold TC_WATER, FLOAT_ERROR. rnum. apply Rlt_b_false. rewrite Rabs_left1; lra. }
  assert (B1 : @ltb RArith (@lit RArith (623.15%dec)) (t + 273.15)%R = true) by (rnum; apply Rlt_b_true; lra).
  assert (B2 : @leb RArith (t + 273.15)%R (@lit RArith (623.15%dec)) = false) by (rnum; apply Rle_b_false; lra).
  destruct (tx_high_v lits01_R t x G I B1 B2 C) as [_ E]. rewrite E. rnum. unfold INVALID_OUTID. lra.
Qed.

(* quality round trips *)
Lemma quality x y0 y1 : y0 <> y1 -> (y0 + x * (y1 - y0) - y0) / (y1 - y0) = x.
Proof. intros H. field. lra. Qed.
Lemma px_ends p o : 0.000611212677444 <= p <= 22.064 -> In o (OV :: energy_ids) ->
  PX p 0 o = @p2sat_water RArith p o /\ PX p 1 o = @p2sat_steam RArith p o.
Proof.
  intros Hp Ho.
  replace 0 with (@lit RArith (0.0%dec)) by (rnum; lra). replace 1 with (@lit RArith (1.0%dec)) by (rnum; lra).
  assert (O : Z.eqb o OP = false /\ Z.eqb o OX = false /\ Z.eqb o OT = false) by (apply ids_px; destruct Ho; [left|right;right]; assumption).
  destruct O as (O1 & O2 & _).
  destruct (px_mid lits01_R p (1/2)%R o (in_px_R p (1/2) Hp ltac:(lra)) (inner_R (1/2) ltac:(lra)) O1 O2) as (_ & A & B). auto.
Qed.
Lemma lin0 (a b : R) : a = a + 0 * (b - a). Proof. ring. Qed.
Lemma lin1 (a b : R) : b = a + 1 * (b - a). Proof. ring. Qed.
Lemma px_line p x o : wet_p p -> 0 <= x <= 1 -> In o (OV :: energy_ids) -> PX p x o = PX p 0 o + x * (PX p 1 o - PX p 0 o).
Proof.
  intros Hp Hx Ho. destruct (Rle_lt_or_eq_dec 0 x (proj1 Hx)) as [L|<-]; [|apply lin0].
  destruct (Rle_lt_or_eq_dec x 1 (proj2 Hx)) as [U| ->]; [|apply lin1]. apply px_lever; auto.
Qed.
Lemma p_quality fuel f o p x : In (f, o) [(PH, OH); (PS, OS); (PV, OV)] -> wet_p p -> 0 <= x <= 1 -> PX p 0 o <> PX p 1 o ->
  @call RArith fuel f p (PX p x o) (from_pair (OX, 4%Z)) = Some x.
Proof.
  intros Hf Hp Hx D.
  assert (Ho : In o (OV :: energy_ids)) by (cbn [In] in Hf; destruct Hf as [E|[E|[E|[]]]]; injection E as <- <-; cbn; auto).
  rewrite (px_line p x o Hp Hx Ho).
  destruct (px_ends p o (wet_p_range p Hp) Ho) as [E0 E1]. rewrite E0, E1 in *.
  cbn [In] in Hf; destruct Hf as [E|[E|[E|[]]]]; injection E as <- <-; cbn [call]; f_equal; apply (quality x _ _ D).
Qed.
Lemma tx_ends t o : 273.15 <= t + 273.15 <= 647.096 -> In o (OV :: energy_ids) ->
  TX t 0 o = @T2sat_water RArith (t + 273.15)%R o /\ TX t 1 o = @T2sat_steam RArith (t + 273.15)%R o.
Proof.
  intros Hp Ho.
  replace 0 with (@lit RArith (0.0%dec)) by (rnum; lra). replace 1 with (@lit RArith (1.0%dec)) by (rnum; lra).
  assert (O : Z.eqb o OP = false /\ Z.eqb o OX = false /\ Z.eqb o OT = false) by (apply ids_px; destruct Ho; [left|right;right]; assumption).
  destruct O as (O1 & O2 & O3).
  destruct (tx_mid lits01_R t (1/2)%R o (in_tx_R (t + 273.15) (1/2) Hp ltac:(lra)) (inner_R (1/2) ltac:(lra)) O1 O3 O2) as (_ & A & B). auto.
Qed.
Lemma tx_line t x o : wet_T (t + 273.15) -> 0 <= x <= 1 -> In o (OV :: energy_ids) -> TX t x o = TX t 0 o + x * (TX t 1 o - TX t 0 o).
Proof.
  intros Hp Hx Ho. destruct (Rle_lt_or_eq_dec 0 x (proj1 Hx)) as [L|<-]; [|apply lin0].
  destruct (Rle_lt_or_eq_dec x 1 (proj2 Hx)) as [U| ->]; [|apply lin1]. apply tx_lever; auto.
Qed.
Lemma t_quality fuel f o t x : In (f, o) [(TH, OH); (TS, OS); (TV, OV)] -> wet_T (t + 273.15) -> 0 <= x <= 1 -> TX t 0 o <> TX t 1 o ->
  @call RArith fuel f t (TX t x o) (from_pair (OX, 4%Z)) = Some x.
Proof.
  intros Hf Hp Hx D.
  assert (Ho : In o (OV :: energy_ids)) by (cbn [In] in Hf; destruct Hf as [E|[E|[E|[]]]]; injection E as <- <-; cbn; auto).
  rewrite (tx_line t x o Hp Hx Ho).
  assert (Hp' : 273.15 <= t + 273.15 <= 647.096) by (unfold wet_T in Hp; lra).
  destruct (tx_ends t o Hp' Ho) as [E0 E1]. rewrite E0, E1 in *.
  cbn [In] in Hf; destruct Hf as [E|[E|[E|[]]]]; injection E as <- <-; exact (f_equal Some (quality x _ _ D)).
Qed.
