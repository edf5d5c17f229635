(* The saturation line seen through px and tx; the B23 boundary in both directions. *)
From Coq Require Import ZArith List Bool Reals Lra Lia.
From Coquelicot Require Import Coquelicot.
From Interval Require Import Tactic.
From Verif Require Import Num Constant R4Sat Boundaries Reg4 Api RealInst RealSat RegionMap SpecReal SpecSub3 Sub3 SatInv.
Open Scope R_scope.

Notation PX := (@px RArith). Notation TX := (@tx RArith).
Lemma tx_p t x : 0 <= x <= 1 -> 273.15 <= t + 273.15 <= 647.096 -> TX t x OP = if97_psat (t + 273.15).
Proof.
  intros Hx HT. unfold tx. change (Z.eqb OP OT) with false. change (Z.eqb OP OX) with false. cbv iota zeta.
  change (@add RArith t (@lit RArith (273.15%dec))) with (t + 273.15).
  unfold T_MAX4, T_MIN4.
  match goal with |- (if ?c then _ else _) = _ => replace c with false end.
  2:{ symmetry. repeat (apply orb_false_iff; split); rnum; apply Rlt_b_false; lra. }
  unfold Tx_reg4. change (Z.eqb OP OP) with true. cbv iota zeta. now apply psat_real.
Qed.
Lemma tx_high t x : 647.096 < t + 273.15 \/ t + 273.15 < 273.15 -> TX t x OP = -9999.
Proof.
  intros HT. unfold tx. change (Z.eqb OP OT) with false. change (Z.eqb OP OX) with false. cbv iota zeta.
  change (@add RArith t (@lit RArith (273.15%dec))) with (t + 273.15).
  unfold T_MAX4, T_MIN4.
  match goal with |- (if ?c then _ else _) = _ => replace c with true end; [reflexivity|].
  symmetry. destruct HT as [HT|HT].
  - apply orb_true_iff; left; apply orb_true_iff; left; apply orb_true_iff; left. rnum. apply Rlt_b_true. lra.
  - apply orb_true_iff; left; apply orb_true_iff; left; apply orb_true_iff; right. rnum. apply Rlt_b_true. lra.
Qed.
Lemma px_t p x : 0 <= x <= 1 -> 0.000611212677444 <= p <= 22.064 -> PX p x OT = if97_tsat p - 273.15.
Proof.
  intros Hx Hp. unfold px, P_MAX4, P_MIN4.
  match goal with |- (if ?c then _ else _) = _ => replace c with false end.
  2:{ symmetry. repeat (apply orb_false_iff; split); rnum; apply Rlt_b_false; lra. }
  change (Z.eqb OT OP) with false. change (Z.eqb OT OX) with false. cbv iota.
  unfold px_reg4, p2sat_water, p2sat_steam. change (Z.eqb OT OP) with false. change (Z.eqb OT OT) with true. cbv iota zeta.
  rewrite tsat_real by lra. repeat match goal with |- context [@eqb RArith ?a ?b] => destruct (@eqb RArith a b) end; reflexivity.
Qed.
Lemma px_high p x : 22.064 < p -> PX p x OT = -9999.
Proof.
  intros Hp. unfold px, P_MAX4, P_MIN4.
  match goal with |- (if ?c then _ else _) = _ => replace c with true end; [reflexivity|].
  symmetry. apply orb_true_iff; left; apply orb_true_iff; left; apply orb_true_iff; left. rnum. apply Rlt_b_true. lra.
Qed.

Lemma psat_lo T : 273.15 <= T <= 647.096 -> 0.000611212677444 <= if97_psat T.
Proof.
  intros [[H|<-] H2]; pose proof psat_273; [|lra]. pose proof (psat_mono 273.15 T (Rle_refl _) H H2). lra.
Qed.
Lemma round_T t x : 0 <= x <= 1 -> 273.15 <= t + 273.15 <= 647.096 -> TX t x OP <= 22.064 -> PX (TX t x OP) x OT = t.
Proof.
  intros Hx HT. rewrite tx_p by assumption. intros Hp. rewrite px_t; [|assumption|].
  - rewrite tsat_psat by assumption. lra.
  - split; [now apply psat_lo|assumption].
Qed.
Lemma round_T_range t x : 0 <= x <= 1 -> 273.15 <= t + 273.15 <= 647.0959999988 -> TX t x OP <= 22.064.
Proof.
  intros Hx HT. rewrite tx_p by lra.
  assert (A : if97_psat 647.0959999988 <= 22.064) by (unfold if97_psat; cbv zeta; interval with (i_prec 120)).
  destruct (Rle_lt_or_eq_dec _ _ (proj2 HT)) as [H|H].
  - pose proof (psat_mono (t + 273.15) 647.0959999988 ltac:(lra) H ltac:(lra)). lra.
  - now rewrite H.
Qed.
Lemma round_p p x : 0 <= x <= 1 -> if97_psat 273.15 <= p <= 22.064 -> TX (PX p x OT) x OP = p.
Proof.
  intros Hx Hp. pose proof psat_273. pose proof psat_647. rewrite px_t by (lra || assumption).
  destruct (psat_tsat p) as [A B]; [lra|].
  rewrite tx_p; [|assumption|].
  - replace (if97_tsat p - 273.15 + 273.15) with (if97_tsat p) by lra. exact B.
  - lra.
Qed.
Lemma round_T_refuted x : 0 <= x <= 1 -> exists t, 273.15 <= t + 273.15 <= 647.096 /\ PX (TX t x OP) x OT = -9999.
Proof.
  intros Hx. exists 373.946. split; [lra|]. rewrite tx_p by lra. replace (373.946 + 273.15) with 647.096 by lra.
  apply px_high. pose proof psat_647. lra.
Qed.
Lemma round_p_refuted x : 0 <= x <= 1 -> exists p, 0.000611212677444 <= p <= 22.064 /\ TX (PX p x OT) x OP = -9999.
Proof.
  intros Hx. exists 0.000611212677444. split; [lra|]. rewrite px_t by (lra || assumption).
  apply tx_high. right. 
  assert (A : if97_tsat 0.000611212677444 < 273.15) by (unfold if97_tsat; cbv zeta; interval with (i_prec 150)). lra.
Qed.
Lemma tx_mono t1 t2 x : 0 <= x <= 1 -> 273.15 <= t1 + 273.15 -> t1 < t2 -> t2 + 273.15 <= 647.096 -> TX t1 x OP < TX t2 x OP.
Proof. intros Hx H1 H H2. rewrite !tx_p by lra. apply psat_mono; lra. Qed.
Lemma px_mono p1 p2 x : 0 <= x <= 1 -> if97_psat 273.15 <= p1 -> p1 < p2 -> p2 <= 22.064 -> PX p1 x OT < PX p2 x OT.
Proof.
  intros Hx H1 H H2. pose proof psat_273. pose proof psat_647. rewrite !px_t by (lra || assumption).
  destruct (psat_tsat p1) as [A1 B1]; [lra|]. destruct (psat_tsat p2) as [A2 B2]; [lra|].
  destruct (Rlt_le_dec (if97_tsat p1) (if97_tsat p2)) as [L|L]; [lra|exfalso].
  destruct L as [L|L].
  - pose proof (psat_mono _ _ (proj1 A2) L (proj2 A1)). lra.
  - rewrite L in B2. lra.
Qed.

(* B23 *)
Lemma b23p2T_real p : 13.918839778870 < p -> @B23_p2T RArith p = 572.54459862746 + sqrt ((p - 13.918839778870) / 0.0010192970039326).
Proof.
  intros H. unfold B23_p2T, B23_p2T_n23. cbn [nth]. 
  match goal with |- @add RArith ?l (@powf RArith ?a ?b) = _ => change (Rplus l (R_powf a (5/10)) = 572.54459862746 + sqrt ((p - 13.918839778870) / 0.0010192970039326)) end.
  unfold R_powf. destruct (Rlt_dec _ _) as [P|P].
  - replace (5/10) with (/2) by lra. rewrite Rpower_sqrt by assumption. rnum. reflexivity.
  - exfalso. apply P. rnum. apply Rdiv_lt_0_compat; lra.
Qed.
Lemma b23_pTp p : 16.5 <= p <= 100 -> Rabs (@B23_T2p RArith (@B23_p2T RArith p) - p) <= 2.3e-11.
Proof.
  intros H. rewrite b23_real, b23p2T_real by lra. unfold if97_b23.
  set (e := (p - 13.918839778870) / 0.0010192970039326).
  assert (E : 0 <= e <= 290.6055 ^ 2) by (unfold e; split; interval).
  assert (S : sqrt e * sqrt e = e) by (apply sqrt_sqrt; lra).
  assert (L : 0 <= sqrt e <= 290.6055).
  { split; [apply sqrt_pos|]. rewrite <- (sqrt_pow2 290.6055) by lra. apply sqrt_le_1_alt. lra. }
  assert (Ep : p = 13.918839778870 + 0.0010192970039326 * (sqrt e * sqrt e)) by (rewrite S; unfold e; field; lra).
  set (r := sqrt e) in *.
  replace (348.05185628969 + -1.1671859879975 * (572.54459862746 + r) + 0.0010192970039326 * (572.54459862746 + r) ^ 2 - p)
    with ((348.05185628969 + -1.1671859879975 * 572.54459862746 + 0.0010192970039326 * 572.54459862746 ^ 2 - 13.918839778870)
     + (-1.1671859879975 + 2 * 0.0010192970039326 * 572.54459862746) * r) by (rewrite Ep; ring).
  apply Rabs_le. nra.
Qed.
Lemma b23_TpT T : 623.15 <= T <= 863.15 -> Rabs (@B23_p2T RArith (@B23_T2p RArith T) - T) <= 1.7e-10.
Proof.
  intros H. rewrite b23_real.
  set (u := T - 572.54459862746). assert (Hu : 50 <= u <= 300) by (unfold u; lra).
  set (d0 := 348.05185628969 + -1.1671859879975 * 572.54459862746 + 0.0010192970039326 * 572.54459862746 ^ 2 - 13.918839778870).
  set (d1 := -1.1671859879975 + 2 * 0.0010192970039326 * 572.54459862746).
  assert (D0 : 0 <= d0 <= 1.6e-11) by (unfold d0; lra). assert (D1 : 0 <= d1 <= 2.6e-14) by (unfold d1; lra).
  assert (Ep : if97_b23 T = 13.918839778870 + 0.0010192970039326 * u ^ 2 + d1 * u + d0) by (unfold if97_b23, d0, d1, u; ring).
  rewrite b23p2T_real by (rewrite Ep; nra). rewrite Ep.
  set (q := (13.918839778870 + 0.0010192970039326 * u ^ 2 + d1 * u + d0 - 13.918839778870) / 0.0010192970039326).
  assert (Q : q = u ^ 2 + (d1 * u + d0) / 0.0010192970039326) by (unfold q; field; lra).
  replace (572.54459862746 + sqrt q - T) with (sqrt q - u) by (unfold u; lra).
  assert (e0 : 0 <= (d1 * u + d0) / 0.0010192970039326) by (apply Rdiv_le_0_compat; nra).
  assert (L : u <= sqrt q) by (rewrite <- (sqrt_pow2 u) by lra; apply sqrt_le_1_alt; lra).
  assert (U : sqrt q <= u + 1.7e-10).
  { rewrite <- (sqrt_pow2 (u + 1.7e-10)) by lra. apply sqrt_le_1_alt. rewrite Q.
    assert ((d1 * u + d0) / 0.0010192970039326 <= 3.4e-10 * u).
    { apply Rmult_le_reg_r with 0.0010192970039326; [lra|]. unfold Rdiv. rewrite Rmult_assoc, Rinv_l by lra. nra. }
    nra. }
  apply Rabs_le. lra.
Qed.
