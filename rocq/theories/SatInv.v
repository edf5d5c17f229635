(* The saturation line over R: the two equations are inverse and increasing. *)
From Coq Require Import ZArith List Bool Reals Lra Lia Ranalysis5.
From Coquelicot Require Import Coquelicot.
From Interval Require Import Tactic.
From Verif Require Import Num Constant R4Sat RealInst RealSat SpecReal SpecSub3 Sub3.
Open Scope R_scope.

Definition th (T : R) : R := T + -0.23855557567849 / (T - 650.17534844798).
Definition cA (x : R) : R := x^2 + 1167.0521452767 * x + -724213.16703206.
Definition cB (x : R) : R := -17.073846940092 * x^2 + 12020.824702470 * x + -3232555.0322333.
Definition cC (x : R) : R := 14.915108613530 * x^2 + -4823.2657361591 * x + 405113.40542057.
Definition be (x : R) : R := 2 * cC x / (- cB x + sqrt (cB x ^ 2 - 4 * cA x * cC x)).
Definition cE (b : R) : R := b^2 + -17.073846940092 * b + 14.915108613530.
Definition cF (b : R) : R := 1167.0521452767 * b^2 + 12020.824702470 * b + -4823.2657361591.
Definition cG (b : R) : R := -724213.16703206 * b^2 + -3232555.0322333 * b + 405113.40542057.

Lemma psat_be T : if97_psat T = be (th T) ^ 4. Proof. reflexivity. Qed.

Lemma th_range T : 273.15 <= T <= 647.096 -> 273.15 <= th T <= 647.2.
Proof. intros H. unfold th. split; interval with (i_bisect T). Qed.
Section Range.
Variable x : R. Hypothesis H : 273.15 <= x <= 647.2.
Lemma C_pos : 0 < cC x. Proof. unfold cC. nra. Qed.
Lemma B_neg : cB x < 0. Proof. unfold cB. nra. Qed.
Lemma disc_pos : 0 < cB x ^ 2 - 4 * cA x * cC x.
Proof. unfold cA, cB, cC. interval with (i_bisect x, i_autodiff x, i_prec 60). Qed.
Lemma den_pos : 0 < - cB x + sqrt (cB x ^ 2 - 4 * cA x * cC x).
Proof. pose proof B_neg. pose proof (sqrt_pos (cB x ^ 2 - 4 * cA x * cC x)). lra. Qed.
Lemma be_pos : 0 < be x.
Proof. unfold be. apply Rdiv_lt_0_compat; [pose proof C_pos; lra|apply den_pos]. Qed.
Lemma be_root : cA x * be x ^ 2 + cB x * be x + cC x = 0.
Proof.
  pose proof den_pos as D. unfold be. set (s := sqrt _) in *.
  assert (S : s * s = cB x ^ 2 - 4 * cA x * cC x) by (apply sqrt_sqrt, Rlt_le, disc_pos).
  apply Rmult_eq_reg_r with ((- cB x + s)^2); [|apply pow_nonzero; lra].
  replace ((cA x * (2 * cC x / (- cB x + s)) ^ 2 + cB x * (2 * cC x / (- cB x + s)) + cC x) * (- cB x + s) ^ 2)
    with (4 * cA x * cC x ^ 2 + 2 * cB x * cC x * (- cB x + s) + cC x * (- cB x + s) ^ 2) by (field; lra).
  replace (4 * cA x * cC x ^ 2 + 2 * cB x * cC x * (- cB x + s) + cC x * (- cB x + s) ^ 2)
    with (cC x * (s * s - (cB x ^ 2 - 4 * cA x * cC x))) by ring. rewrite S. ring.
Qed.
Lemma be_root' : cE (be x) * x ^ 2 + cF (be x) * x + cG (be x) = 0.
Proof. rewrite <- be_root. unfold cA, cB, cC, cE, cF, cG. ring. Qed.
Lemma G_neg : cG (be x) < 0.
Proof.
  unfold cG. assert (0.15 < be x) by (unfold be, cA, cB, cC; interval with (i_bisect x, i_autodiff x)). nra.
Qed.
Lemma slope : 0 < 2 * cE (be x) * x + cF (be x).
Proof. unfold cE, cF, be, cA, cB, cC. interval with (i_bisect x, i_autodiff x, i_prec 60, i_depth 25). Qed.
End Range.

Lemma D_root x : 273.15 <= x <= 647.2 ->
  2 * cG (be x) / (- cF (be x) - sqrt (cF (be x) ^ 2 - 4 * cE (be x) * cG (be x))) = x.
Proof.
  intros H. pose proof (be_root' x H) as R. pose proof (slope x H) as S. pose proof (G_neg x H) as G.
  set (b := be x) in *.
  replace (cF b ^ 2 - 4 * cE b * cG b) with ((2 * cE b * x + cF b) ^ 2).
  2:{ replace ((2 * cE b * x + cF b) ^ 2) with (4 * cE b * (cE b * x ^ 2 + cF b * x + cG b) + cF b ^ 2 - 4 * cE b * cG b) by ring.
      rewrite R. ring. }
  rewrite sqrt_pow2 by lra.
  assert (N : cE b * x + cF b <> 0) by (intros E; assert (x * (cE b * x + cF b) = - cG b) by lra; rewrite E in *; lra).
  apply Rmult_eq_reg_r with (- cF b - (2 * cE b * x + cF b)).
  - unfold Rdiv. rewrite Rmult_assoc, Rinv_l by (intros E; apply N; lra). lra.
  - intros E; apply N; lra.
Qed.
Lemma T_root T : 273.15 <= T <= 647.096 ->
  (650.17534844798 + th T - sqrt ((650.17534844798 + th T) ^ 2 - 4 * (-0.23855557567849 + 650.17534844798 * th T))) / 2 = T.
Proof.
  intros H. set (a := 650.17534844798). set (c := -0.23855557567849).
  assert (Ha : a - T > 3) by (unfold a; lra).
  assert (E : (th T - T) * (T - a) = c) by (unfold th; fold a; fold c; field; lra).
  replace ((a + th T) ^ 2 - 4 * (c + a * th T)) with ((a + th T - 2 * T) ^ 2) by (rewrite <- E; ring).
  assert (P : 0 < th T - T).
  { apply Rmult_lt_reg_r with (a - T); [lra|]. replace ((th T - T) * (a - T)) with (- c) by lra. unfold c; lra. }
  rewrite sqrt_pow2 by lra. lra.
Qed.
(* the temperature equation inverts the pressure equation, with no side condition on p *)
Lemma tsat_psat T : 273.15 <= T <= 647.096 -> if97_tsat (if97_psat T) = T.
Proof.
  intros H. pose proof (th_range T H) as Hx. pose proof (be_pos _ Hx) as P.
  rewrite psat_be. unfold if97_tsat. 
  replace (sqrt (sqrt (be (th T) ^ 4))) with (be (th T)).
  2:{ replace (be (th T) ^ 4) with ((be (th T) ^ 2) ^ 2) by ring. rewrite sqrt_pow2 by nra. now rewrite sqrt_pow2 by lra. }
  cbv zeta. fold (cE (be (th T))) (cF (be (th T))) (cG (be (th T))). rewrite D_root by assumption. now apply T_root.
Qed.
Lemma psat_pos T : 273.15 <= T <= 647.096 -> 0 < if97_psat T.
Proof. intros H. rewrite psat_be. apply pow_lt, be_pos, th_range, H. Qed.
Lemma psat_cont T : 273.15 <= T <= 647.096 -> continuity_pt if97_psat T.
Proof.
  intros H. pose proof (th_range T H) as Hx. pose proof (disc_pos _ Hx) as D. pose proof (den_pos _ Hx) as N.
  apply continuity_pt_filterlim, (ex_derive_continuous if97_psat).
  apply (ex_derive_comp (fun x => be x ^ 4) th).
  - apply (ex_derive_comp (fun y => y ^ 4) be); [auto_derive; trivial|].
    unfold be, cA, cB, cC. unfold cA, cB, cC in D, N. auto_derive. split; [exact D|split; [apply Rgt_not_eq; exact N|exact I]].
  - unfold th. auto_derive. lra.
Qed.

(* a continuous injective function on [a,b] with f a < f b is strictly increasing, and onto *)
Section Mono.
Variables (f : R -> R) (a b : R).
Hypothesis Hc : forall x, a <= x <= b -> continuity_pt f x.
Hypothesis Hab : f a < f b.
Hypothesis Hi : forall x y, a <= x <= b -> a <= y <= b -> f x = f y -> x = y.
Lemma ivt u v y : a <= u -> v <= b -> u <= v -> f u <= y <= f v -> exists z, u <= z <= v /\ f z = y.
Proof.
  intros Hu Hv Huv [H1 H2]. destruct H1 as [H1| <-]; [|exists u; lra]. destruct H2 as [H2| ->]; [|exists v; lra].
  destruct Huv as [Huv| ->]; [|lra].
  destruct (IVT_interv (fun x => f x - y) u v) as [z [Z1 Z2]]; try lra.
  - intros c Hcc. apply continuity_pt_minus; [apply Hc; lra|apply continuity_pt_const; intros ? ?; reflexivity].
  - exists z. split; [assumption|lra].
Qed.
Lemma ivt_rev u v y : a <= u -> v <= b -> u <= v -> f v <= y <= f u -> exists z, u <= z <= v /\ f z = y.
Proof.
  intros Hu Hv Huv [H1 H2]. destruct H1 as [H1| <-]; [|exists v; lra]. destruct H2 as [H2| ->]; [|exists u; lra].
  destruct Huv as [Huv| ->]; [|lra].
  destruct (IVT_interv (fun x => y - f x) u v) as [z [Z1 Z2]]; try lra.
  - intros c Hcc. apply continuity_pt_minus; [apply continuity_pt_const; intros ? ?; reflexivity|apply Hc; lra].
  - exists z. split; [assumption|lra].
Qed.
Lemma above x : a < x <= b -> f a < f x.
Proof.
  intros Hx. destruct (Rlt_le_dec (f a) (f x)) as [L|L]; [assumption|exfalso].
  destruct (ivt x b (f a)) as [z [Z1 Z2]]; try lra.
  assert (z = a) by (apply Hi; lra). lra.
Qed.
Lemma mono x y : a <= x -> x < y -> y <= b -> f x < f y.
Proof.
  intros Hx Hxy Hy. destruct (Rlt_le_dec (f x) (f y)) as [L|L]; [assumption|exfalso].
  destruct Hx as [Hx|<-]; [|pose proof (above y); lra].
  pose proof (above y ltac:(lra)).
  destruct (ivt a x (f y)) as [z [Z1 Z2]]; try lra.
  assert (z = y) by (apply Hi; lra). lra.
Qed.
End Mono.
Lemma psat_inj x y : 273.15 <= x <= 647.096 -> 273.15 <= y <= 647.096 -> if97_psat x = if97_psat y -> x = y.
Proof. intros Hx Hy E. rewrite <- (tsat_psat x Hx), <- (tsat_psat y Hy). now rewrite E. Qed.
Lemma psat_273 : 0.00061121267744434 < if97_psat 273.15 < 0.00061121267744435.
Proof. unfold if97_psat. cbv zeta. split; interval with (i_prec 100). Qed.
Lemma psat_647 : 22.06400000032 < if97_psat 647.096 < 22.06400000033.
Proof. unfold if97_psat. cbv zeta. split; interval with (i_prec 100). Qed.
Lemma psat_mono x y : 273.15 <= x -> x < y -> y <= 647.096 -> if97_psat x < if97_psat y.
Proof.
  apply mono.
  - apply psat_cont. - pose proof psat_273. pose proof psat_647. lra. - apply psat_inj.
Qed.
(* every pressure of the line is attained *)
Lemma psat_onto p : if97_psat 273.15 <= p <= if97_psat 647.096 -> exists T, 273.15 <= T <= 647.096 /\ if97_psat T = p.
Proof. intros H. apply (ivt if97_psat 273.15 647.096 psat_cont); lra. Qed.
Lemma psat_tsat p : if97_psat 273.15 <= p <= if97_psat 647.096 ->
  273.15 <= if97_tsat p <= 647.096 /\ if97_psat (if97_tsat p) = p.
Proof. intros H. destruct (psat_onto p H) as [T [HT <-]]. rewrite tsat_psat by assumption. auto. Qed.
