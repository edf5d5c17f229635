(* px at the saturation pressure and tx return the same values. *)
From Coq Require Import ZArith Reals List Bool Lra Lia.
From Verif Require Import Num RealInst SpecSub3 Constant R4Sat Reg1 Reg2 Reg3Td Reg3V Reg3 Reg4 RegionMap Api Spec SpecReal SpecWet SatInv RealSat SatApi Sub3 Lever LeverReal.
Open Scope R_scope.

Section Agree.
Variables (t x : R) (w : Z).
Let T := t + 273.15.
Hypothesis HT : wet_T T.
Hypothesis Hp : wet_p (if97_psat T).
Hypothesis Hx : 0 <= x <= 1.
Let p := if97_psat T.
Let Ts : @T_saturation RArith p = T.
Proof. pose proof (wet_p_range _ Hp). rewrite tsat_real by (unfold p; lra). apply tsat_psat. unfold wet_T in HT. lra. Qed.
Let Ps : @p_saturation RArith T = p. Proof. apply psat_real. unfold wet_T in HT. lra. Qed.
Let Fc : @ltb RArith (@nabs RArith (@sub RArith T TC_WATER)) FLOAT_ERROR = false.
Proof. unfold TC_WATER, FLOAT_ERROR. unfold wet_T in HT. rnum. apply Rlt_b_false. rewrite Rabs_left1; lra. Qed.
Let sides : (@leb RArith P_MIN p = true /\ @leb RArith p Ps_623 = true /\ @leb RArith T (@lit RArith (623.15%dec)) = true) \/
  (@leb RArith p Ps_623 = false /\ @ltb RArith (@nabs RArith (@sub RArith p PC_WATER)) FLOAT_ERROR = false /\ @leb RArith T (@lit RArith (623.15%dec)) = false).
Proof.
  unfold wet_T in HT. destruct Hp as [Q|Q]; [left|right].
  - destruct (br_low p Q) as (_ & A & B). split; [exact A|]. split; [exact B|]. rnum. apply Rle_b_true.
    destruct (Rle_lt_dec T 623.15) as [L|L]; [lra|]. pose proof (psat_mono 623.15 T ltac:(lra) L ltac:(lra)). pose proof psat_623. lra.
  - destruct (br_high p Q) as (_ & A & B). split; [exact A|]. split; [exact B|]. rnum. apply Rle_b_false.
    destruct (Rle_lt_dec T 623.15) as [[L|L]|L]; [|rewrite L in Q; lra|lra]. pose proof (psat_mono T 623.15 ltac:(lra) L ltac:(lra)). lra.
Qed.
Lemma t_back : @sub RArith T (@lit RArith (273.15%dec)) = t. Proof. unfold T. rnum. lra. Qed.
Lemma water_agree : w <> OT -> w <> OP -> @p2sat_water RArith p w = @T2sat_water RArith T w.
Proof.
  intros A B. unfold p2sat_water, T2sat_water. rewrite (proj2 (Z.eqb_neq w OT) A), (proj2 (Z.eqb_neq w OP) B). cbv zeta. rewrite Ts, Fc, Ps.
  destruct sides as [(E1 & E2 & E3)|(E1 & E2 & E3)]; [rewrite E1, E2, E3; reflexivity|rewrite E1, E2, E3, andb_false_r; reflexivity].
Qed.
Lemma td_v v : @Td_reg3 RArith T (@div RArith (@lit RArith (1.0%dec)) v) OV = v.
Proof. exact (inv_inv v). Qed.
Lemma steam_agree : w <> OT -> w <> OP -> @p2sat_steam RArith p w = @T2sat_steam RArith T w.
Proof.
  intros A B. unfold p2sat_steam, T2sat_steam. rewrite (proj2 (Z.eqb_neq w OT) A), (proj2 (Z.eqb_neq w OP) B). cbv zeta. rewrite Ts, Fc, Ps.
  destruct sides as [(E1 & E2 & E3)|(E1 & E2 & E3)]; [rewrite E1, E2, E3; reflexivity|rewrite E1, E2, E3, andb_false_r].
  cbv iota. destruct (Z.eqb_spec w OV) as [->|n]; [|reflexivity]. change (Z.eqb OV OD) with false. cbv iota. rewrite td_v. reflexivity.
Qed.
Lemma px_tx : @Api.px RArith p x w = @Api.tx RArith t x w.
Proof.
  destruct (in_px_R p x (wet_p_range _ Hp) Hx) as (C1 & C2 & C3 & C4). assert (HT' : 273.15 <= T <= 647.096) by (unfold wet_T in HT; lra).
  destruct (in_tx_R T x HT' Hx) as (D1 & D2 & _ & _).
  unfold px, tx. cbv zeta. change (@add RArith t (@lit RArith (273.15%dec))) with T. rewrite C1, C2, C3, C4, D1, D2. cbn [orb].
  destruct (Z.eqb_spec w OP) as [->|n1].
  { change (Z.eqb OP OT) with false. change (Z.eqb OP OX) with false. cbv iota. unfold Tx_reg4. change (Z.eqb OP OP) with true. cbv iota zeta. symmetry. exact Ps. }
  destruct (Z.eqb_spec w OX) as [->|n2]; [reflexivity|].
  destruct (Z.eqb_spec w OT) as [->|n3].
  { unfold px_reg4, p2sat_water, p2sat_steam. change (Z.eqb OT OP) with false. change (Z.eqb OT OT) with true. cbv iota zeta. rewrite Ts, t_back. destruct (@eqb RArith x (@lit RArith (0.0%dec))), (@eqb RArith x (@lit RArith (1.0%dec))); reflexivity. }
  unfold px_reg4, Tx_reg4. rewrite (proj2 (Z.eqb_neq w OP) n1), (proj2 (Z.eqb_neq w OT) n3). cbv zeta. rewrite Ts, Ps, water_agree, steam_agree by assumption. reflexivity.
Qed.
End Agree.

From Interval Require Import Tactic.
Lemma psat_lowend : 0.000611212677444 <= if97_psat 273.15.
Proof. unfold if97_psat. cbv zeta. interval with (i_prec 100). Qed.
Lemma psat_before : if97_psat (623.15 - 1e-10) <= 16.5291642526045.
Proof. unfold if97_psat. cbv zeta. interval with (i_prec 100). Qed.
Lemma psat_top : if97_psat (647.096 - 1e-5) <= 22.064 - 1e-6.
Proof. unfold if97_psat. cbv zeta. interval with (i_prec 100). Qed.
Lemma psat_le a b : 273.15 <= a -> a <= b -> b <= 647.096 -> if97_psat a <= if97_psat b.
Proof. intros A [B|B] C; [left; apply psat_mono; lra|right; now rewrite B]. Qed.
Lemma px_tx_all t x w : 0 <= t <= 350 - 1e-10 \/ 350 < t <= 373.946 - 1e-5 -> 0 <= x <= 1 ->
  @Api.px RArith (if97_psat (t + 273.15)) x w = @Api.tx RArith t x w.
Proof.
  intros Ht Hx. apply px_tx; [unfold wet_T; lra| |exact Hx]. destruct Ht as [H|H]; [left|right]; split.
  - pose proof psat_lowend. pose proof (psat_le 273.15 (t + 273.15) ltac:(lra) ltac:(lra) ltac:(lra)). lra.
  - pose proof psat_before. pose proof (psat_le (t + 273.15) (623.15 - 1e-10) ltac:(lra) ltac:(lra) ltac:(lra)). lra.
  - apply psat_mono; lra.
  - pose proof psat_top. pose proof (psat_le (t + 273.15) (647.096 - 1e-5) ltac:(lra) ltac:(lra) ltac:(lra)). lra.
Qed.
Lemma psat_near : 22.0639 < if97_psat (647.096 - 1e-6).
Proof. unfold if97_psat. cbv zeta. interval with (i_prec 100). Qed.
Lemma tx_px_all p x w : 0.00061121267745 <= p <= 16.5291642526045 \/ if97_psat 623.15 < p <= 22.0639 -> 0 <= x <= 1 ->
  @Api.tx RArith (if97_tsat p - 273.15)%R x w = @Api.px RArith p x w.
Proof.
  intros H Hx. pose proof psat_273. pose proof psat_647. pose proof psat_623. destruct (psat_tsat p ltac:(lra)) as [A B].
  pose proof (px_tx (if97_tsat p - 273.15) x w) as P. replace (if97_tsat p - 273.15 + 273.15) with (if97_tsat p) in P by lra. rewrite B in P.
  symmetry. apply P; [|destruct H; [left|right]; lra|exact Hx]. unfold wet_T. split; [lra|].
  destruct (Rle_lt_dec (if97_tsat p) (647.096 - 1e-6)) as [L|L]; [exact L|]. pose proof psat_near. pose proof (psat_mono (647.096 - 1e-6) (if97_tsat p) ltac:(lra) L ltac:(lra)). lra.
Qed.
(* the two ends *)
Lemma top_end x w : 0 <= x <= 1 -> @Api.px RArith (if97_psat 647.096) x w = IZR INVALID_VALUE /\ @Api.tx RArith 373.946 x OP = if97_psat 647.096.
Proof.
  intros Hx. pose proof psat_647. split.
  - unfold px. replace (@ltb RArith P_MAX4 (if97_psat 647.096)) with true; [reflexivity|]. symmetry. unfold P_MAX4. rnum. apply Rlt_b_true. lra.
  - destruct (in_tx_R 647.096 x ltac:(lra) Hx) as (D1 & D2 & D3 & D4). unfold tx. cbv zeta. change (Z.eqb OP OT) with false. change (Z.eqb OP OX) with false. cbv iota.
    replace (@add RArith 373.946 (@lit RArith (273.15%dec))) with 647.096 by (rnum; lra). rewrite D1, D2, D3, D4. cbn [orb]. cbv iota. unfold Tx_reg4. change (Z.eqb OP OP) with true. cbv iota zeta. apply psat_real. lra.
Qed.
Lemma tsat_min : if97_tsat 0.000611212677444 < 273.15.
Proof. unfold if97_tsat. cbv zeta. interval with (i_prec 100). Qed.
Lemma low_end x : 0 <= x <= 1 -> @Api.tx RArith (if97_tsat 0.000611212677444 - 273.15)%R x OP = IZR INVALID_VALUE /\ @Api.px RArith 0.000611212677444 x OP = 0.000611212677444.
Proof.
  intros Hx. split.
  - unfold tx. cbv zeta. change (Z.eqb OP OT) with false. change (Z.eqb OP OX) with false. cbv iota.
    replace (@ltb RArith (@add RArith (if97_tsat 0.000611212677444 - 273.15)%R (@lit RArith (273.15%dec))) T_MIN4) with true; [rewrite orb_true_r; reflexivity|].
    symmetry. unfold T_MIN4. rnum. apply Rlt_b_true. pose proof tsat_min. lra.
  - destruct (in_px_R 0.000611212677444 x ltac:(lra) Hx) as (C1 & C2 & C3 & C4). unfold px. rewrite C1, C2, C3, C4. reflexivity.
Qed.
