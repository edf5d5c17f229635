(* Viscosity and thermal conductivity as functions of density and temperature. *)
From Coq Require Import ZArith List Bool Reals Lra Lia.
From Coquelicot Require Import Coquelicot.
From Interval Require Import Tactic.
From Verif Require Import Num Algo RealInst RealSat Constant Transport Reg1 Reg2 Reg5 Reg1Back Reg2Back Reg5Back Api Spec SpecThermo Stab1.
Import ListNotations.
Open Scope R_scope.

(* u = T_c / T, d = rho / rho_c, x = u - 1, y = d - 1 *)
Definition v0 (u : R) : R := 1.67752 + 2.20462 * u + 0.6366564 * u ^ 2 + (-0.241605) * u ^ 3.
Definition v1 (x y : R) : R := 0.520094 + 0.0850895 * x ^ 1 + (-1.08374) * x ^ 2 + (-0.289555) * x ^ 3 + 0.222531 * y ^ 1 + 0.999115 * x ^ 1 * y ^ 1 + 1.88797 * x ^ 2 * y ^ 1 + 1.26613 * x ^ 3 * y ^ 1 + 0.120573 * x ^ 5 * y ^ 1 + (-0.281378) * y ^ 2 + (-0.906851) * x ^ 1 * y ^ 2 + (-0.772479) * x ^ 2 * y ^ 2 + (-0.489837) * x ^ 3 * y ^ 2 + (-0.25704) * x ^ 4 * y ^ 2 + 0.161913 * y ^ 3 + 0.257399 * x ^ 1 * y ^ 3 + (-0.0325372) * y ^ 4 + 0.0698452 * x ^ 3 * y ^ 4 + 0.00872102 * x ^ 4 * y ^ 5 + (-0.00435673) * x ^ 3 * y ^ 6 + (-0.000593264) * x ^ 5 * y ^ 6.
Definition v1x (x y : R) : R := 0.0850895 + (-2.16748) * x ^ 1 + (-0.868665) * x ^ 2 + 0.999115 * y ^ 1 + 3.77594 * x ^ 1 * y ^ 1 + 3.79839 * x ^ 2 * y ^ 1 + 0.602865 * x ^ 4 * y ^ 1 + (-0.906851) * y ^ 2 + (-1.544958) * x ^ 1 * y ^ 2 + (-1.469511) * x ^ 2 * y ^ 2 + (-1.02816) * x ^ 3 * y ^ 2 + 0.257399 * y ^ 3 + 0.2095356 * x ^ 2 * y ^ 4 + 0.03488408 * x ^ 3 * y ^ 5 + (-0.01307019) * x ^ 2 * y ^ 6 + (-0.002966320) * x ^ 4 * y ^ 6.
Definition l0 (u : R) : R := 0.002443221 + 0.01323095 * u + 0.006770357 * u ^ 2 + (-0.003454586) * u ^ 3 + 0.0004096266 * u ^ 4.
Definition l1 (x y : R) : R := (1.60397357 + (-0.646013523) * y ^ 1 + 0.111443906 * y ^ 2 + 0.102997357 * y ^ 3 + (-0.0504123634) * y ^ 4 + 0.00609859258 * y ^ 5) + (2.33771842 + (-2.78843778) * y ^ 1 + 1.53616167 * y ^ 2 + (-0.463045512) * y ^ 3 + 0.0832827019 * y ^ 4 + (-0.00719201245) * y ^ 5) * x ^ 1 + (2.19650529 + (-4.54580785) * y ^ 1 + 3.55777244 * y ^ 2 + (-1.40944978) * y ^ 3 + 0.275418278 * y ^ 4 + (-0.0205938816) * y ^ 5) * x ^ 2 + ((-1.21051378) + 1.60812989 * y ^ 1 + (-0.621178141) * y ^ 2 + 0.0716373224 * y ^ 3) * x ^ 3 + ((-2.720337) + 4.57586331 * y ^ 1 + (-3.18369245) * y ^ 2 + 1.1168348 * y ^ 3 + (-0.19268305) * y ^ 4 + 0.012913842 * y ^ 5) * x ^ 4.
Definition l1y (x y : R) : R := ((-0.646013523) + 0.222887812 * y ^ 1 + 0.308992071 * y ^ 2 + (-0.2016494536) * y ^ 3 + 0.03049296290 * y ^ 4) + ((-2.78843778) + 3.07232334 * y ^ 1 + (-1.389136536) * y ^ 2 + 0.3331308076 * y ^ 3 + (-0.03596006225) * y ^ 4) * x ^ 1 + ((-4.54580785) + 7.11554488 * y ^ 1 + (-4.22834934) * y ^ 2 + 1.101673112 * y ^ 3 + (-0.1029694080) * y ^ 4) * x ^ 2 + (1.60812989 + (-1.242356282) * y ^ 1 + 0.2149119672 * y ^ 2) * x ^ 3 + (4.57586331 + (-6.36738490) * y ^ 1 + 3.3505044 * y ^ 2 + (-0.77073220) * y ^ 3 + 0.064569210 * y ^ 4) * x ^ 4.
Lemma v0_pos u : 0.28 <= u <= 2.37 -> 0 < v0 u. Proof. intros H. unfold v0. interval with (i_bisect u). Qed.
Lemma l0_pos u : 0.28 <= u <= 2.37 -> 0 < l0 u. Proof. intros H. unfold l0. interval with (i_bisect u). Qed.
Definition dv0 (u : R) : R := (2.20462 + 1.2733128 * u + (-0.724815) * u ^ 2) / v0 u.
Definition dl0 (u : R) : R := (0.01323095 + 0.013540714 * u + (-0.010363758) * u ^ 2 + 0.0016385064 * u ^ 3) / l0 u.
(* the logarithms *)
Definition lv (d u : R) : R := - ln u / 2 - ln (v0 u) + d * v1 (u - 1) (d - 1).
Definition ll (d u : R) : R := - ln u / 2 - ln (l0 u) + d * l1 (u - 1) (d - 1).
Lemma comb (g f : R -> R) g' f' u : 0 < u -> 0 < g u -> is_derive g u g' -> is_derive f u f' -> is_derive (fun u => - ln u / 2 - ln (g u) + f u) u (- / (2 * u) - g' / g u + f').
Proof.
  intros U G A B. assert (A1 := is_derive_unique _ _ _ A). assert (B1 := is_derive_unique _ _ _ B).
  auto_derive; [repeat split; [exact U|exists g'; exact A|exact G|exists f'; exact B]|]. change (Derive (fun x => g x) u) with (Derive g u). change (Derive (fun x => f x) u) with (Derive f u). rewrite A1, B1. field. lra.
Qed.
Lemma lv_u d u : 0.28 <= u <= 2.37 -> is_derive (lv d) u (- / (2 * u) - dv0 u + d * v1x (u - 1) (d - 1)).
Proof.
  intros H. apply (comb v0 (fun u => d * v1 (u - 1) (d - 1))); [lra|exact (v0_pos u H)| |].
  - unfold v0. auto_derive; [exact I|]. lra.
  - set (y := d - 1). clearbody y. unfold v1, v1x. auto_derive; [exact I|]. lra.
Qed.
Lemma ll_0 u : 0.28 <= u <= 2.37 -> is_derive (ll 0) u (- / (2 * u) - dl0 u + 0).
Proof.
  intros H. apply (comb l0 (fun u => 0 * l1 (u - 1) (0 - 1))); [lra|exact (l0_pos u H)| |].
  - unfold l0. auto_derive; [exact I|]. lra.
  - apply is_derive_ext with (fun _ => 0); [intros; lra|]. apply @is_derive_const.
Qed.
Lemma ll_d d u : is_derive (fun d => ll d u) d (l1 (u - 1) (d - 1) + d * l1y (u - 1) (d - 1)).
Proof. unfold ll. set (x := u - 1). set (k := - ln u / 2 - ln (l0 u)). clearbody x k. unfold l1, l1y. auto_derive; [exact I|]. lra. Qed.
(* signs *)
Lemma sv_light d u : 0 <= d <= 1 -> 0.6 <= u <= 2.37 -> - / (2 * u) - dv0 u + d * v1x (u - 1) (d - 1) < 0.
Proof. intros H1 H2. unfold dv0, v0, v1x. interval with (i_bisect d, i_bisect u, i_autodiff u, i_depth 30). Qed.
Lemma sv_dense d u : 3 <= d <= 3.42 -> 1 <= u <= 2.37 -> 0 < - / (2 * u) - dv0 u + d * v1x (u - 1) (d - 1).
Proof. intros H1 H2. unfold dv0, v0, v1x. interval with (i_bisect d, i_bisect u, i_autodiff u, i_depth 30). Qed.
Lemma sl_0 u : 0.28 <= u <= 2.37 -> - / (2 * u) - dl0 u + 0 < 0.
Proof. intros H2. unfold dl0, l0. interval with (i_bisect u, i_depth 30). Qed.
Lemma sl_d d u : 0 <= d <= 3.42 -> 0.28 <= u <= 1.18 -> 0 < l1 (u - 1) (d - 1) + d * l1y (u - 1) (d - 1).
Proof. intros H1 H2. unfold l1, l1y. interval with (i_bisect d, i_bisect u, i_autodiff d, i_depth 30). Qed.

(* the functions of the library *)
Lemma u_T T : 0 < T -> 0 < 647.096 / T. Proof. intros. apply Rdiv_lt_0_compat; lra. Qed.
Lemma u_rng T a b : 0 < a -> a <= T <= b -> 647.096 / b <= 647.096 / T <= 647.096 / a.
Proof. intros H0 H. split; unfold Rdiv; apply Rmult_le_compat_l; try lra; apply Rinv_le_contravar; lra. Qed.
Lemma sqrt_u u : 0 < u -> sqrt (/ u) = exp (- ln u / 2).
Proof.
  intros H. rewrite <- Rpower_sqrt by (apply Rinv_0_lt_compat; exact H). unfold Rpower. rewrite ln_Rinv by exact H. f_equal. field.
Qed.
Ltac norm T r U :=
  replace (T / (647096 / 1000)) with (/ (647.096 / T)) by (replace (647096 / 1000) with 647.096 by lra; field; lra);
  replace (10 / 10 / / (647.096 / T) - 10 / 10) with (647.096 / T - 1) by (replace (10 / 10) with 1 by lra; field; lra);
  replace (r / (3220 / 10)) with (r / 322) by lra; replace (r / 322 - 10 / 10) with (r / 322 - 1) by lra.
Ltac pz := repeat match goal with |- context [powerRZ ?x 0] => change (powerRZ x 0) with 1 | |- context [powerRZ ?x (Zpos ?n)] => let k := eval compute in (Pos.to_nat n) in change (powerRZ x (Zpos n)) with (x ^ k) end;
  rewrite ?pow_inv; unfold Rdiv; rewrite ?Rinv_inv, ?Rinv_1.
Lemma visc_eq r T : 273.15 <= T <= 2273.15 -> @viscosity RArith r T = exp (lv (r / 322) (647.096 / T)) / 10000.
Proof.
  intros H. pose proof (u_T T ltac:(lra)) as U. assert (P : 0 < v0 (647.096 / T)) by (apply v0_pos; interval).
  unfold lv. unfold Rminus at 1. rewrite !exp_plus, exp_Ropp, exp_ln by exact P. rewrite <- sqrt_u by exact U.
  unfold viscosity, TC_WATER, DC_WATER, poly_powi, viscosity_ijH. cbv zeta. cbn [fold_left seq nth row_i row_j row_n fst snd Z.of_nat Pos.of_succ_nat Pos.succ]. rnum.
  norm T r U. set (u := 647.096 / T) in *. set (d := r / 322). clearbody u d. 
  match goal with |- 1000 / 10 * _ / ?a * exp (_ * ?b) * _ * _ = _ => replace a with (v0 u); [replace b with (v1 (u - 1) (d - 1))|] end.
  - unfold Rdiv. set (a := sqrt _). set (b := / v0 u). set (c := exp _). lra.
  - unfold v1. generalize (u - 1) (d - 1). intros x y. pz. lra.
  - unfold v0. pz. lra.
Qed.
Lemma cond_eq r T : 273.15 <= T <= 2273.15 -> @thcond RArith r T = exp (ll (r / 322) (647.096 / T)) / 1000.
Proof.
  intros H. pose proof (u_T T ltac:(lra)) as U. assert (P : 0 < l0 (647.096 / T)) by (apply l0_pos; interval).
  unfold ll. unfold Rminus at 1. rewrite !exp_plus, exp_Ropp, exp_ln by exact P. rewrite <- sqrt_u by exact U.
  unfold thcond, TC_WATER, DC_WATER, thcond_no, thcond_nij. cbv zeta. cbn [fold_left seq nth Z.of_nat Pos.of_succ_nat Pos.succ]. rnum.
  norm T r U. set (u := 647.096 / T) in *. set (d := r / 322). clearbody u d.
  match goal with |- _ * (_ / ?a * exp (_ * ?b) + _) = _ => replace a with (l0 u); [replace b with (l1 (u - 1) (d - 1))|] end.
  - unfold Rdiv. set (a := sqrt _). set (b := / l0 u). set (c := exp _). lra.
  - unfold l1. generalize (u - 1) (d - 1). intros x y. pz. lra.
  - unfold l0. pz. lra.
Qed.
Lemma tmin : 647.096 / 273.15 <= 2.37. Proof. lra. Qed.
Lemma visc_pos r T : 273.15 <= T <= 2273.15 -> 0 < @viscosity RArith r T.
Proof. intros H. rewrite visc_eq by exact H. apply Rdiv_lt_0_compat; [apply exp_pos|lra]. Qed.
Lemma cond_pos r T : 273.15 <= T <= 2273.15 -> 0 < @thcond RArith r T.
Proof. intros H. rewrite cond_eq by exact H. apply Rdiv_lt_0_compat; [apply exp_pos|lra]. Qed.
Lemma u_decr T1 T2 : 0 < T1 -> T1 < T2 -> 647.096 / T2 < 647.096 / T1.
Proof. intros H1 H2. unfold Rdiv. apply Rmult_lt_compat_l; [lra|]. apply Rinv_lt_contravar; [apply Rmult_lt_0_compat; lra|exact H2]. Qed.
Lemma exp_lt_k a b k : 0 < k -> a < b -> exp a / k < exp b / k.
Proof. intros K H. apply exp_increasing in H. unfold Rdiv. apply Rmult_lt_compat_r; [apply Rinv_0_lt_compat; exact K|exact H]. Qed.
(* light fluids: the viscosity rises with the temperature *)
Lemma visc_light r T1 T2 : 0 <= r <= 322 -> 273.15 <= T1 -> T1 < T2 -> T2 <= 1073.15 -> @viscosity RArith r T1 < @viscosity RArith r T2.
Proof.
  intros Hr H1 H2 H3. rewrite !visc_eq by lra. apply exp_lt_k; [lra|]. pose proof (u_decr T1 T2 ltac:(lra) H2) as U. pose proof (u_rng T1 273.15 1073.15 ltac:(lra) ltac:(lra)). pose proof (u_rng T2 273.15 1073.15 ltac:(lra) ltac:(lra)).
  assert (E0 : 0.6 <= 647.096 / 1073.15) by lra. pose proof tmin. apply Ropp_lt_cancel.
  apply (incr_of (fun u => - lv (r / 322) u) (fun u => - (- / (2 * u) - dv0 u + r / 322 * v1x (u - 1) (r / 322 - 1)))); [exact U| |].
  - intros u Hu. apply (is_derive_opp (lv (r / 322))). apply lv_u. lra.
  - intros u Hu. pose proof (sv_light (r / 322) u ltac:(lra) ltac:(lra)). lra.
Qed.
(* compressed and ordinary water: it falls *)
Lemma visc_dense r T1 T2 : 966 <= r <= 1100 -> 273.15 <= T1 -> T1 < T2 -> T2 <= 647 -> @viscosity RArith r T2 < @viscosity RArith r T1.
Proof.
  intros Hr H1 H2 H3. rewrite !visc_eq by lra. apply exp_lt_k; [lra|]. pose proof (u_decr T1 T2 ltac:(lra) H2) as U. pose proof (u_rng T1 273.15 647 ltac:(lra) ltac:(lra)). pose proof (u_rng T2 273.15 647 ltac:(lra) ltac:(lra)).
  assert (E0 : 1 <= 647.096 / 647) by lra. pose proof tmin.
  apply (incr_of (lv (r / 322)) (fun u => - / (2 * u) - dv0 u + r / 322 * v1x (u - 1) (r / 322 - 1))); [exact U| |].
  - intros u Hu. apply lv_u. lra.
  - intros u Hu. apply sv_dense; lra.
Qed.
(* the dilute gas conducts better when hotter, and the hot fluid when denser *)
Lemma cond_dilute T1 T2 : 273.15 <= T1 -> T1 < T2 -> T2 <= 2273.15 -> @thcond RArith 0%R T1 < @thcond RArith 0%R T2.
Proof.
  intros H1 H2 H3. rewrite !cond_eq by lra. replace (0 / 322) with 0 by lra. apply exp_lt_k; [lra|]. pose proof (u_decr T1 T2 ltac:(lra) H2) as U. pose proof (u_rng T1 273.15 2273.15 ltac:(lra) ltac:(lra)). pose proof (u_rng T2 273.15 2273.15 ltac:(lra) ltac:(lra)).
  assert (E0 : 0.28 <= 647.096 / 2273.15) by lra. pose proof tmin. apply Ropp_lt_cancel.
  apply (incr_of (fun u => - ll 0 u) (fun u => - (- / (2 * u) - dl0 u + 0))); [exact U| |].
  - intros u Hu. apply (is_derive_opp (ll 0)). apply ll_0. lra.
  - intros u Hu. pose proof (sl_0 u ltac:(lra)). lra.
Qed.
Lemma cond_dense T r1 r2 : 550 <= T <= 2273.15 -> 0 <= r1 -> r1 < r2 -> r2 <= 1100 -> @thcond RArith r1 T < @thcond RArith r2 T.
Proof.
  intros HT H1 H2 H3. rewrite !cond_eq by lra. apply exp_lt_k; [lra|]. pose proof (u_rng T 550 2273.15 ltac:(lra) ltac:(lra)).
  assert (E0 : 0.28 <= 647.096 / 2273.15) by lra. assert (E1 : 647.096 / 550 <= 1.18) by lra.
  apply (incr_of (fun d => ll d (647.096 / T)) (fun d => l1 (647.096 / T - 1) (d - 1) + d * l1y (647.096 / T - 1) (d - 1))); [lra| |].
  - intros d Hd. apply ll_d.
  - intros d Hd. apply sl_d; lra.
Qed.
Lemma api_visc r p t : In r [1; 2; 5]%Z -> ptR r ODV p t = @viscosity RArith (ptR r OD p t) (t + 273.15)%R.
Proof. intros [<-|[<-|[<-|[]]]]; reflexivity. Qed.
Lemma api_cond r p t : In r [1; 2; 5]%Z -> ptR r OTC p t = @thcond RArith (ptR r OD p t) (t + 273.15)%R.
Proof. intros [<-|[<-|[<-|[]]]]; reflexivity. Qed.
Lemma api_pos r p t : In r [1; 2; 5]%Z -> 0 <= t <= 2000 -> 0 < ptR r ODV p t /\ 0 < ptR r OTC p t.
Proof. intros Hr H. rewrite api_visc, api_cond by exact Hr. split; [apply visc_pos|apply cond_pos]; lra. Qed.
Lemma tv3_pos fuel t v : 0 <= t <= 2000 -> exists dv tc,
  @tv RArith fuel t v (from_pair (ODV, 3%Z)) = Some dv /\ @tv RArith fuel t v (from_pair (OTC, 3%Z)) = Some tc /\ 0 < dv /\ 0 < tc.
Proof.
  intros H. exists (@viscosity RArith (@div RArith (@lit RArith (1.0%dec)) v) (t + 273.15)%R), (@thcond RArith (@div RArith (@lit RArith (1.0%dec)) v) (t + 273.15)%R).
  split; [reflexivity|]. split; [reflexivity|]. split; [apply visc_pos|apply cond_pos]; lra.
Qed.
