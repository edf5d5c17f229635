(* The static dielectric constant as a function of density and temperature. *)
From Coq Require Import ZArith List Bool Reals Lra Lia.
From Coquelicot Require Import Coquelicot.
From Interval Require Import Tactic.
From Verif Require Import Num RealInst RealSat Constant Transport Reg1 Reg2 Reg5 Reg1Back Reg2Back Reg5Back Api Spec SpecReal SpecThermo SpecStable SpecSteam SpecGas SpecMap Gibbs GibbsModel ThermoApi ThermoPts SatInv SatBand1 SatBand2 WetGap Bound2 Stab1 Stab2 Stab5 Map12 Expand PvMap SpecIso.
Import ListNotations.
Open Scope R_scope.

(* the polynomial of the release in d = rho / rho_c and z = (T_c / T)^(1/4), and its derivatives:
   d (d (1 + sd)) / dd and z^-3 d (z^4 (1 + sd)) / dz / 4 *)
Definition sd (d z : R) : R := 0.978224486826 * d ^ 1 * z ^ 1 + (-0.957771379375) * d ^ 1 * z ^ 4 + 0.237511794148 * d ^ 1 * z ^ 10 + 0.714692244396 * d ^ 2 * z ^ 6 + (-0.298217036956) * d ^ 3 * z ^ 6 + (-0.108863472196) * d ^ 3 * z ^ 10 + 0.0949327488264 * d ^ 4 * z ^ 8 + (-0.00980469816509) * d ^ 5 * z ^ 8 + 0.000016516763497 * d ^ 6 * z ^ 20 + 0.0000937359795772 * d ^ 7 * z ^ 2 + (-0.00000000012317921872) * d ^ 10 * z ^ 40.
Definition sd_d (d z : R) : R := 1 + (2 * 0.978224486826 * d ^ 1 * z ^ 1 + 2 * (-0.957771379375) * d ^ 1 * z ^ 4 + 2 * 0.237511794148 * d ^ 1 * z ^ 10 + 3 * 0.714692244396 * d ^ 2 * z ^ 6 + 4 * (-0.298217036956) * d ^ 3 * z ^ 6 + 4 * (-0.108863472196) * d ^ 3 * z ^ 10 + 5 * 0.0949327488264 * d ^ 4 * z ^ 8 + 6 * (-0.00980469816509) * d ^ 5 * z ^ 8 + 7 * 0.000016516763497 * d ^ 6 * z ^ 20 + 8 * 0.0000937359795772 * d ^ 7 * z ^ 2 + 11 * (-0.00000000012317921872) * d ^ 10 * z ^ 40).
Definition sd_z (d z : R) : R := 1 + (1.25 * 0.978224486826 * d ^ 1 * z ^ 1 + 2 * (-0.957771379375) * d ^ 1 * z ^ 4 + 3.5 * 0.237511794148 * d ^ 1 * z ^ 10 + 2.5 * 0.714692244396 * d ^ 2 * z ^ 6 + 2.5 * (-0.298217036956) * d ^ 3 * z ^ 6 + 3.5 * (-0.108863472196) * d ^ 3 * z ^ 10 + 3 * 0.0949327488264 * d ^ 4 * z ^ 8 + 3 * (-0.00980469816509) * d ^ 5 * z ^ 8 + 6 * 0.000016516763497 * d ^ 6 * z ^ 20 + 1.5 * 0.0000937359795772 * d ^ 7 * z ^ 2 + 11 * (-0.00000000012317921872) * d ^ 10 * z ^ 40).
Lemma pos_d d z : 0 <= d <= 3.42 -> 0.73 <= z <= 1.241 -> 0 < sd_d d z.
Proof.
  intros H1 H2. unfold sd_d.
  assert (0 < 1 + 2 * d * (0.978224486826 * z + -0.957771379375 * z ^ 4 + 0.237511794148 * z ^ 10) + d * d * (3 * 0.714692244396 * z ^ 6 + d * (4 * (-0.298217036956) * z ^ 6 + 4 * (-0.108863472196) * z ^ 10
    + d * (5 * 0.0949327488264 * z ^ 8 + d * (6 * (-0.00980469816509) * z ^ 8 + d * (7 * 0.000016516763497 * z ^ 20 + d * (8 * 0.0000937359795772 * z ^ 2 + d * d * d * (11 * (-0.00000000012317921872) * z ^ 40)))))))); [|lra].
  interval with (i_bisect d, i_bisect z, i_depth 30).
Qed.
Lemma pos_z d z : 0 <= d <= 3.42 -> 0.73 <= z <= 1.241 -> 0 < sd_z d z.
Proof. intros H1 H2. unfold sd_z. interval with (i_bisect d, i_bisect z, i_depth 30). Qed.

(* the Kirkwood-type expression of the release *)
Definition ek (A B : R) : R := (1 + A + 5 * B + sqrt (9 + 2 * A + 18 * B + A * A + 10 * A * B + 9 * B * B)) / 4 / (1 - B).
Definition gd (d z c : R) : R := 1 + 0.00196096504426 * d / c + sd d z.
Definition KA : R := 602213670000000000000000 * (6138 / 1000000000000000000000000000000000) * (6138 / 1000000000000000000000000000000000)
  / (18015268 / 1000000000) / (8854187817 / 1000000000000000000000) / (1380658 / 100000000000000000000000000000).
Definition KB : R := 602213670000000000000000 * (1636 / 10000000000000000000000000000000000000000000) / 3 / (18015268 / 1000000000) / (8854187817 / 1000000000000000000000).
Definition zT (T : R) : R := Rpower (647.096 / T) (1 / 4).
Definition cT (T : R) : R := Rpower (T / 228 - 1) 1.2.
Lemma pw x (k : nat) y : 0 < x -> y = INR k / 4 -> R_powf x y = Rpower x (1 / 4) ^ k.
Proof.
  intros H ->. unfold R_powf. destruct (Rlt_dec 0 x) as [_|N]; [|contradiction].
  rewrite <- Rpower_pow by apply exp_pos. rewrite Rpower_mult. f_equal. field.
Qed.
Lemma pw1 x : 0 < x -> R_powf x (12 / 10) = Rpower x 1.2.
Proof. intros H. unfold R_powf. destruct (Rlt_dec 0 x) as [_|N]; [|contradiction]. f_equal; lra. Qed.
Lemma diel_eq r T : 228 < T -> @static_dielectric RArith r T = ek (KA * (r * gd (r / 322) (zT T) (cT T) / T)) (KB * r).
Proof.
  intros H. assert (HT : 0 < T) by lra. assert (Hi : 0 < / T) by (apply Rinv_0_lt_compat; lra).
  assert (X : 0 < 647.096 / T) by (unfold Rdiv; apply Rmult_lt_0_compat; lra).
  unfold static_dielectric, static_dielectric_n, static_dielectric_I, static_dielectric_J, TC_WATER, DC_WATER.
  cbv zeta. cbn [fold_left seq nth]. rnum.
  replace (647096 / 1000 / T) with (647.096 / T) by (f_equal; lra).
  replace (647096 / 1000 / (2280 / 10) / (647.096 / T) - 10 / 10) with (T / 228 - 1) by (replace (647096 / 1000) with 647.096 by lra; field; lra).
  rewrite (pw1 (T / 228 - 1)) by lra.
  match goal with |- (_ + _ * r * ?g / _ / _ / _ / T + _ + _) / _ / _ = _ => replace g with (gd (r / 322) (zT T) (cT T)) end.
  2:{ rewrite (pw _ 1) by (exact X || (cbn; lra)). rewrite !(pw _ 4 (10 / 10)) by (exact X || (cbn; lra)). rewrite !(pw _ 10 (25 / 10)) by (exact X || (cbn; lra)).
    rewrite !(pw _ 6 (15 / 10)) by (exact X || (cbn; lra)). rewrite !(pw _ 8 (20 / 10)) by (exact X || (cbn; lra)). rewrite !(pw _ 20 (50 / 10)) by (exact X || (cbn; lra)).
    rewrite !(pw _ 2 (5 / 10)) by (exact X || (cbn; lra)). rewrite !(pw _ 40 (100 / 10)) by (exact X || (cbn; lra)).
    replace (r / (3220 / 10)) with (r / 322) by lra. fold (zT T) (cT T). unfold gd, sd.
    set (z := zT T). set (c := cT T). set (d := r / 322). clearbody z c d.
    change (powerRZ d 1) with (d ^ 1). change (powerRZ d 2) with (d ^ 2). change (powerRZ d 3) with (d ^ 3). change (powerRZ d 4) with (d ^ 4). change (powerRZ d 5) with (d ^ 5).
    change (powerRZ d 6) with (d ^ 6). change (powerRZ d 7) with (d ^ 7). change (powerRZ d 10) with (d ^ 10). lra. }
  match goal with |- (_ + ?A + _ * ?B + _) / _ / _ = _ => replace A with (KA * (r * gd (r / 322) (zT T) (cT T) / T)) by (unfold KA; field; lra);
    replace B with (KB * r) by (unfold KB; field) end.
  unfold ek. generalize (KA * (r * gd (r / 322) (zT T) (cT T) / T)) (KB * r). intros A B.
  replace (10 / 10) with 1 by lra. replace (50 / 10) with 5 by lra. replace (90 / 10) with 9 by lra. replace (20 / 10) with 2 by lra. replace (180 / 10) with 18 by lra.
  replace (100 / 10) with 10 by lra. replace (40 / 10) with 4 by lra. reflexivity.
Qed.
Lemma KA_pos : 0 < KA. Proof. unfold KA. interval. Qed.
Lemma KB_rng : 0.0002 < KB < 0.00021. Proof. unfold KB. split; interval. Qed.
Lemma ek_mono A1 A2 B1 B2 : 0 <= A1 <= A2 -> 0 <= B1 <= B2 -> B2 < 1 -> A1 < A2 \/ B1 < B2 -> ek A1 B1 < ek A2 B2.
Proof.
  intros HA HB H1 Hs. unfold ek. set (c1 := 9 + _ + _ + _ + _ + _). set (c2 := 9 + 2 * A2 + _ + _ + _ + _).
  assert (C : c1 <= c2). { unfold c1, c2. assert (A1 * A1 <= A2 * A2) by nra. assert (B1 * B1 <= B2 * B2) by nra. assert (A1 * B1 <= A2 * B2) by nra. lra. }
  pose proof (sqrt_le_1_alt _ _ C) as S. pose proof (sqrt_pos c1).
  set (u := sqrt c1) in *. set (v := sqrt c2) in *. clearbody u v c1 c2.
  assert (I : / (1 - B1) <= / (1 - B2)) by (apply Rinv_le_contravar; lra). assert (P : 0 < / (1 - B1)) by (apply Rinv_0_lt_compat; lra).
  unfold Rdiv. set (n1 := 1 + A1 + 5 * B1 + u). set (n2 := 1 + A2 + 5 * B2 + v).
  assert (N : n1 < n2) by (unfold n1, n2; lra). assert (0 < n1) by (unfold n1; lra).
  apply Rlt_le_trans with (n2 * / 4 * / (1 - B1)); [apply Rmult_lt_compat_r; lra|apply Rmult_le_compat_l; lra].
Qed.
Lemma ek_0 : ek 0 0 = 1.
Proof. unfold ek. replace (9 + 2 * 0 + 18 * 0 + 0 * 0 + 10 * 0 * 0 + 9 * 0 * 0) with (3 * 3) by ring. rewrite sqrt_square by lra. field. Qed.
Lemma zT_rng T : 273.15 <= T <= 2273.15 -> 0.73 <= zT T <= 1.241.
Proof. intros H. unfold zT, Rpower. split; interval. Qed.
Lemma zT_4 T : 0 < T -> zT T ^ 4 = 647.096 / T.
Proof.
  intros H. unfold zT. rewrite <- Rpower_pow by apply exp_pos. rewrite Rpower_mult. replace (1 / 4 * INR 4) with 1 by (cbn; lra). apply Rpower_1.
  unfold Rdiv. apply Rmult_lt_0_compat; [lra|apply Rinv_0_lt_compat; lra].
Qed.
Lemma cT_pos T : 0 < cT T. Proof. apply exp_pos. Qed.
(* rho g increases with the density *)
Lemma dg_incr z c d1 d2 : 0.73 <= z <= 1.241 -> 0 < c -> 0 <= d1 -> d1 < d2 -> d2 <= 3.42 -> d1 * gd d1 z c < d2 * gd d2 z c.
Proof.
  intros Hz Hc H1 H2 H3. apply (incr_of (fun d => d * gd d z c) (fun d => sd_d d z + 2 * (0.00196096504426 * d / c))); [exact H2| |].
  - intros d Hd. unfold gd, sd, sd_d. auto_derive; [exact I|]. unfold Rdiv. lra.
  - intros d Hd. pose proof (pos_d d z ltac:(lra) Hz). assert (0 <= 0.00196096504426 * d / c); [|lra].
    unfold Rdiv. apply Rmult_le_pos; [lra|left; apply Rinv_0_lt_compat; exact Hc].
Qed.
(* g / T falls with the temperature *)
Lemma zg_incr d z1 z2 : 0 <= d <= 3.42 -> 0.73 <= z1 -> z1 < z2 -> z2 <= 1.241 -> z1 ^ 4 * (1 + sd d z1) < z2 ^ 4 * (1 + sd d z2).
Proof.
  intros Hd H1 H2 H3. apply (incr_of (fun z => z ^ 4 * (1 + sd d z)) (fun z => 4 * z ^ 3 * sd_z d z)); [exact H2| |].
  - intros z Hz. unfold sd, sd_z. auto_derive; [exact I|]. lra.
  - intros z Hz. pose proof (pos_z d z Hd ltac:(lra)). assert (0 < z ^ 3) by (apply pow_lt; lra). apply Rmult_lt_0_compat; lra.
Qed.
Lemma g_pos d z c : 0 <= d <= 3.42 -> 0.73 <= z <= 1.241 -> 0 < c -> 0 < d -> 0 < d * gd d z c.
Proof. intros H1 H2 H3 H4. pose proof (dg_incr z c 0 d H2 H3 ltac:(lra) H4 ltac:(lra)). lra. Qed.
Definition eps (r T : R) : R := @static_dielectric RArith r T.
Lemma split_A r T : KA * (r * gd (r / 322) (zT T) (cT T) / T) = KA * 322 / T * (r / 322 * gd (r / 322) (zT T) (cT T)).
Proof. generalize (gd (r / 322) (zT T) (cT T)). intros g. unfold Rdiv. generalize (/ T). intros i. field. Qed.
Lemma eps_0 T : 228 < T -> eps 0 T = 1.
Proof. intros H. unfold eps. rewrite diel_eq by exact H. rewrite Rmult_0_r. replace (KA * (0 * gd (0 / 322) (zT T) (cT T) / T)) with 0 by (unfold Rdiv; ring). exact ek_0. Qed.
Lemma eps_incr T r1 r2 : 273.15 <= T <= 2273.15 -> 0 <= r1 -> r1 < r2 -> r2 <= 1100 -> eps r1 T < eps r2 T.
Proof.
  intros HT H1 H2 H3. unfold eps. rewrite !diel_eq by lra. rewrite !split_A. pose proof KA_pos. pose proof KB_rng. pose proof (zT_rng T HT) as Z. pose proof (cT_pos T) as C.
  assert (K : 0 < KA * 322 / T) by (unfold Rdiv; apply Rmult_lt_0_compat; [lra|apply Rinv_0_lt_compat; lra]).
  pose proof (dg_incr (zT T) (cT T) (r1 / 322) (r2 / 322) Z C ltac:(lra) ltac:(lra) ltac:(lra)) as M.
  assert (P : 0 <= r1 / 322 * gd (r1 / 322) (zT T) (cT T)). { destruct H1 as [H1| <-]; [left; apply g_pos; lra|right; unfold Rdiv; ring]. }
  assert (KB * r2 <= 0.00021 * 1100) by (apply Rmult_le_compat; lra).
  apply ek_mono.
  - split; [apply Rmult_le_pos; lra|apply Rmult_le_compat_l; lra].
  - split; [apply Rmult_le_pos; lra|apply Rmult_le_compat_l; lra].
  - lra.
  - left. apply Rmult_lt_compat_l; lra.
Qed.
Lemma zT_decr T1 T2 : 0 < T1 -> T1 < T2 -> zT T2 < zT T1.
Proof.
  intros H1 H2. unfold zT, Rpower. apply exp_increasing. apply Rmult_lt_compat_l; [lra|]. apply ln_increasing.
  - unfold Rdiv. apply Rmult_lt_0_compat; [lra|apply Rinv_0_lt_compat; lra].
  - unfold Rdiv. apply Rmult_lt_compat_l; [lra|]. apply Rinv_lt_contravar; [apply Rmult_lt_0_compat; lra|exact H2].
Qed.
Lemma cT_incr T1 T2 : 228 < T1 -> T1 < T2 -> cT T1 < cT T2.
Proof. intros H1 H2. unfold cT, Rpower. apply exp_increasing. apply Rmult_lt_compat_l; [lra|]. apply ln_increasing; lra. Qed.
Lemma eps_decr r T1 T2 : 0 < r <= 1100 -> 273.15 <= T1 -> T1 < T2 -> T2 <= 2273.15 -> eps r T2 < eps r T1.
Proof.
  intros Hr H1 H2 H3. unfold eps. rewrite !diel_eq by lra. pose proof KA_pos. pose proof KB_rng. set (d := r / 322). assert (Hd : 0 < d <= 3.42) by (unfold d; lra).
  pose proof (zT_rng T1 ltac:(lra)) as Z1. pose proof (zT_rng T2 ltac:(lra)) as Z2. pose proof (zT_decr T1 T2 ltac:(lra) H2) as Z. pose proof (cT_incr T1 T2 ltac:(lra) H2) as C.
  pose proof (cT_pos T1) as C1. pose proof (cT_pos T2) as C2.
  pose proof (zg_incr d _ _ ltac:(lra) (proj1 Z2) Z (proj2 Z1)) as G. rewrite !zT_4 in G by lra.
  pose proof (g_pos d (zT T2) (cT T2) ltac:(lra) Z2 C2 (proj1 Hd)) as P.
  assert (I2 : 0 < / T2) by (apply Rinv_0_lt_compat; lra). assert (I1 : / T2 < / T1) by (apply Rinv_lt_contravar; [apply Rmult_lt_0_compat; lra|exact H2]).
  assert (J2 : 0 < / cT T2) by (apply Rinv_0_lt_compat; lra). assert (J1 : / cT T2 < / cT T1) by (apply Rinv_lt_contravar; [apply Rmult_lt_0_compat; lra|exact C]).
  assert (J : / cT T2 * / T2 < / cT T1 * / T1) by (apply Rmult_gt_0_lt_compat; lra).
  assert (M : gd d (zT T2) (cT T2) / T2 < gd d (zT T1) (cT T1) / T1).
  { unfold gd, Rdiv. unfold Rdiv in G. set (a := / T1) in *. set (b := / T2) in *. set (u := 1 + sd d (zT T1)) in *. set (w := 1 + sd d (zT T2)) in *.
    assert (w * b < u * a) by (apply Rmult_lt_reg_l with 647.096; lra).
    assert (0.00196096504426 * d * (/ cT T2 * b) < 0.00196096504426 * d * (/ cT T1 * a)) by (apply Rmult_lt_compat_l; [lra|exact J]).
    unfold u, w in *. lra. }
  assert (A0 : 0 <= gd d (zT T2) (cT T2)). { destruct (Rle_dec 0 (gd d (zT T2) (cT T2))) as [A|A]; [exact A|]. assert (d * gd d (zT T2) (cT T2) <= d * 0) by (apply Rmult_le_compat_l; lra). lra. }
  unfold Rdiv in *. rewrite !Rmult_assoc.
  apply ek_mono.
  - split; [apply Rmult_le_pos; [lra|]; apply Rmult_le_pos; [lra|]; apply Rmult_le_pos; lra|]. apply Rmult_le_compat_l; [lra|]. apply Rmult_le_compat_l; lra.
  - split; [apply Rmult_le_pos; lra|lra].
  - assert (KB * r <= 0.00021 * 1100) by (apply Rmult_le_compat; lra). lra.
  - left. apply Rmult_lt_compat_l; [lra|]. apply Rmult_lt_compat_l; lra.
Qed.

(* densities of the regions *)
Lemma v1_cold T : 273.15 <= T <= 278.15 -> 1 / 1100 < f_v (Gib 1) 100 T.
Proof. intros H. unfold f_v. tab. interval with (i_bisect T, i_autodiff T, i_depth 30). Qed.
Lemma vb_floor T : 623.15 <= T <= 863.15 -> 1 / 1100 < f_v (Gib 2) (if97_b23 T) T.
Proof. intros H. unfold f_v, if97_b23. tab. interval with (i_bisect T, i_autodiff T, i_depth 30). Qed.
Lemma v2_floor T : 863.1 <= T <= 863.15 -> 1 / 1100 < f_v (Gib 2) 100 T.
Proof. intros H. unfold f_v. tab. interval with (i_bisect T, i_depth 30). Qed.
Lemma b23_100 : 100 <= if97_b23 863.15 + 1 / 1000000000. Proof. unfold if97_b23. interval with (i_prec 90). Qed.
Lemma b23_8631 : if97_b23 863.1 < 100. Proof. unfold if97_b23. interval. Qed.
Lemma v5_floor T : 1073.15 <= T <= 2273.15 -> 1 / 1100 < f_v (Gib 5) 50 T.
Proof. intros H. unfold f_v. tab. interval with (i_bisect T, i_depth 30). Qed.

Lemma osdc r p t : In r [1; 2; 5]%Z -> ptR r OSDC p t = eps (1 / ptR r OV p t) (t + 273.15).
Proof.
  assert (L : @lit RArith (1.0%dec) = 1%R) by (rnum; lra).
  intros [<-|[<-|[<-|[]]]]; [change (eps (@div RArith (@lit RArith (1.0%dec)) (ptR 1 OV p t)) (t + 273.15) = eps (1 / ptR 1 OV p t) (t + 273.15))
    |change (eps (@div RArith (@lit RArith (1.0%dec)) (ptR 2 OV p t)) (t + 273.15) = eps (1 / ptR 2 OV p t) (t + 273.15))
    |change (eps (@div RArith (@lit RArith (1.0%dec)) (ptR 5 OV p t)) (t + 273.15) = eps (1 / ptR 5 OV p t) (t + 273.15))];
  (replace (@lit RArith (1.0%dec)) with 1 by (symmetry; exact L)); reflexivity.
Qed.
Lemma inv_le v : 1 / 1100 <= v -> 0 < 1 / v <= 1100.
Proof.
  intros H. split; [apply Rdiv_lt_0_compat; lra|]. unfold Rdiv. rewrite Rmult_1_l. replace 1100 with (/ (1 / 1100)) by field. apply Rinv_le_contravar; lra.
Qed.
Lemma inv_lt v1 v2 : 0 < v1 -> v1 < v2 -> 1 / v2 < 1 / v1.
Proof. intros H1 H2. unfold Rdiv. rewrite !Rmult_1_l. apply Rinv_lt_contravar; [apply Rmult_lt_0_compat; lra|exact H2]. Qed.
Lemma v1_floor t : 0 <= t -> wide1 100 (t + Kc) -> 1 / 1100 < ptR 1 OV 100 t.
Proof.
  intros H W. assert (A : forall a, 0 <= a <= 5 -> wide1 100 (a + Kc) -> 1 / 1100 < ptR 1 OV 100 a).
  { intros a Ha Wa. rewrite (a_v _ _ _ (facts1 _ _ (wide_dom _ _ _ Wa eq_refl))). apply v1_cold. unfold Kc. lra. }
  destruct (Rle_dec t 5) as [C|C]; [apply A; [lra|exact W]|]. apply Rlt_trans with (ptR 1 OV 100 5); [apply A; [lra|]|apply v_incr1; [lra|lra|exact W]].
  destruct W as (W1 & W2 & _). pose proof psat_623. assert (if97_psat (5 + Kc) < if97_psat 623.15) by (apply psat_mono; unfold Kc; lra). split; [unfold Kc; lra|]. split; lra.
Qed.
Lemma v2_top t : 863.1 <= t + Kc -> wide2 100 (t + Kc) -> 1 / 1100 < ptR 2 OV 100 t.
Proof.
  intros H W. assert (A : forall a, 863.1 <= a + Kc <= 863.15 -> wide2 100 (a + Kc) -> 1 / 1100 < ptR 2 OV 100 a).
  { intros a Ha Wa. rewrite (a_v _ _ _ (facts2 _ _ (wide2_dom _ _ _ Wa eq_refl))). apply v2_floor. exact Ha. }
  destruct (Rle_dec (t + Kc) 863.15) as [C|C]; [apply A; [lra|exact W]|]. 
  assert (W0 : wide2 100 (590 + Kc)). { pose proof b23_100. replace (590 + Kc) with 863.15 by (unfold Kc; lra). split; [lra|]. split; [lra|]. split; intros; lra. }
  apply Rlt_trans with (ptR 2 OV 100 590); [apply A; [unfold Kc; lra|exact W0]|]. apply v_incr2; [exact W0|unfold Kc in C; lra|]. destruct W as (_ & W & _). lra.
Qed.
Lemma floor1 p t : liquid p t -> 1 / 1100 < ptR 1 OV p t.
Proof.
  intros L. pose proof L as [Ht [Hp Hq]]. pose proof (liq_wide _ _ L) as W. assert (W' : wide1 100 (t + Kc)) by (destruct W as (A & B & C); split; [exact A|split; lra]).
  apply Rlt_le_trans with (ptR 1 OV 100 t).
  - apply v1_floor; [lra|exact W'].
  - destruct Hq as [Hq| ->]; [left; apply v_decr1; [exact W|exact Hq|lra]|lra].
Qed.
Lemma floor2 p t : vapour p t -> 1 / 1100 < ptR 2 OV p t.
Proof.
  intros V. pose proof V as (Ht & Hp & H1 & H2).
  assert (Step : forall q, p <= q -> vapour q t -> 1 / 1100 < ptR 2 OV q t -> 1 / 1100 < ptR 2 OV p t).
  { intros q [Q| ->] Vq F; [|exact F]. apply Rlt_trans with (ptR 2 OV q t); [exact F|]. apply v_decr2; [lra|exact Q|exact (vap_wide _ _ Vq)]. }
  destruct (Rle_dec t 350) as [C|C].
  - specialize (H1 C). set (q := if97_psat (t + 273.15)) in *. assert (HT : 273.15 <= t + 273.15 <= 623.15) by lra.
    assert (Q : q <= 17). { pose proof psat_623. unfold q. destruct (Req_dec (t + 273.15) 623.15) as [->|N]; [lra|]. assert (if97_psat (t + 273.15) < if97_psat 623.15) by (apply psat_mono; lra). lra. }
    assert (Vq : vapour q t) by (split; [exact Ht|split; [lra|split; intros; [right; reflexivity|lra]]]).
    apply (Step q H1 Vq). assert (Lq : liquid q t) by (split; [lra|split; [right; reflexivity|lra]]).
    pose proof (at_sat q (t + 273.15)) as G. destruct (G ltac:(lra) ltac:(lra) (sat_bound1 (t + 273.15) ltac:(lra)) (sat_bound2 (t + 273.15) ltac:(lra))) as (_ & _ & _ & G3).
    pose proof (floor1 q t Lq) as F.
    change (@pT_reg1 RArith q (t + 273.15)%R OV) with (ptR 1 OV q t) in G3. change (@pT_reg2 RArith q (t + 273.15)%R OV) with (ptR 2 OV q t) in G3. lra.
  - assert (Top : 863.1 <= t + Kc -> vapour 100 t -> 1 / 1100 < ptR 2 OV p t).
    { intros Hh V'. apply (Step 100 (proj2 Hp) V'). apply v2_top; [exact Hh|exact (vap_wide _ _ V')]. }
    destruct (Rle_dec t 590) as [D|D]; [|apply Top; [unfold Kc; lra|split; [exact Ht|split; [lra|split; intros; lra]]]].
    specialize (H2 ltac:(lra)). destruct (Rle_dec (if97_b23 (t + 273.15)) 100) as [B|B].
    + assert (V' : vapour (if97_b23 (t + 273.15)) t) by (split; [exact Ht|split; [lra|split; intros; lra]]).
      apply (Step _ H2 V'). rewrite (a_v _ _ _ (facts2 _ _ (wide2_dom _ _ _ (vap_wide _ _ V') eq_refl))). apply vb_floor. unfold Kc. lra.
    + assert (V' : vapour 100 t) by (split; [exact Ht|split; [lra|split; intros; lra]]). apply Top; [|exact V'].
      destruct (Rle_dec 863.1 (t + Kc)) as [E|E]; [exact E|]. exfalso. change Kc with 273.15 in E.
      pose proof (b23_incr (t + 273.15) 863.1 ltac:(lra) ltac:(lra)). pose proof b23_8631. lra.
Qed.
Lemma floor5 p t : hot_gas p t -> 1 / 1100 < ptR 5 OV p t.
Proof.
  intros [Ht Hp]. assert (V' : hot_gas 50 t) by (split; lra). apply Rlt_le_trans with (ptR 5 OV 50 t).
  - rewrite (a_v _ _ _ (pt_facts _ _ _ (dom5_gas _ _ V'))). apply v5_floor. unfold Kc. lra.
  - destruct (proj2 Hp) as [Q| ->]; [left; apply v_decr5; [lra|exact Q|exact V']|lra].
Qed.
Lemma sdc1_p t p1 p2 : liquid p1 t -> p1 < p2 -> p2 <= 100 -> ptR 1 OSDC p1 t < ptR 1 OSDC p2 t.
Proof.
  intros L H1 H2. assert (L2 : liquid p2 t) by (destruct L as [A B]; split; lra). rewrite !osdc by (cbn; tauto).
  pose proof (floor1 _ _ L2) as F. destruct (inv_le _ (Rlt_le _ _ F)) as [F1 F2]. destruct (inv_le _ (Rlt_le _ _ (floor1 _ _ L))) as [F3 _]. pose proof (proj1 L) as A.
  apply eps_incr; [lra|lra| |exact F2]. apply inv_lt; [lra|]. apply v_decr1; [exact (liq_wide _ _ L)|exact H1|exact H2].
Qed.
Lemma sdc2_p t p1 p2 : 0 < p1 -> p1 < p2 -> vapour p2 t -> ptR 2 OSDC p1 t < ptR 2 OSDC p2 t.
Proof.
  intros H0 H1 V. assert (V1 : vapour p1 t) by (destruct V as (A & B & C & D); split; [exact A|split; [lra|split; intros X; [specialize (C X)|specialize (D X)]; lra]]).
  rewrite !osdc by (cbn; tauto). pose proof (floor2 _ _ V) as F. destruct (inv_le _ (Rlt_le _ _ F)) as [F1 F2]. destruct (inv_le _ (Rlt_le _ _ (floor2 _ _ V1))) as [F3 _].
  pose proof (proj1 V) as A. apply eps_incr; [lra|lra| |exact F2]. apply inv_lt; [lra|]. apply v_decr2; [lra|exact H1|exact (vap_wide _ _ V)].
Qed.
Lemma sdc5_p t p1 p2 : 0 < p1 -> p1 < p2 -> hot_gas p2 t -> ptR 5 OSDC p1 t < ptR 5 OSDC p2 t.
Proof.
  intros H0 H1 V. assert (V1 : hot_gas p1 t) by (destruct V as (A & B); split; lra).
  rewrite !osdc by (cbn; tauto). pose proof (floor5 _ _ V) as F. destruct (inv_le _ (Rlt_le _ _ F)) as [F1 F2]. destruct (inv_le _ (Rlt_le _ _ (floor5 _ _ V1))) as [F3 _].
  pose proof (proj1 V) as A. apply eps_incr; [lra|lra| |exact F2]. apply inv_lt; [lra|]. apply v_decr5; [lra|exact H1|exact V].
Qed.
(* warmer and lighter at constant pressure *)
Lemma sdc_T r p t1 t2 : In r [1; 2; 5]%Z -> 0 <= t1 -> t1 < t2 -> t2 <= 2000 -> 1 / 1100 < ptR r OV p t1 -> ptR r OV p t1 < ptR r OV p t2 -> ptR r OSDC p t2 < ptR r OSDC p t1.
Proof.
  intros Hr H0 H1 H2 F G. rewrite !osdc by exact Hr. destruct (inv_le _ (Rlt_le _ _ F)) as [F1 F2]. pose proof (inv_lt (ptR r OV p t1) (ptR r OV p t2) ltac:(lra) G) as I.
  assert (0 < 1 / ptR r OV p t2) by (apply Rdiv_lt_0_compat; lra).
  apply Rlt_trans with (eps (1 / ptR r OV p t2) (t1 + 273.15)); [apply eps_decr; lra|apply eps_incr; lra].
Qed.
Lemma sdc1_T p t1 t2 : 5 <= t1 -> t1 < t2 -> liquid p t2 -> ptR 1 OSDC p t2 < ptR 1 OSDC p t1.
Proof.
  intros H0 H1 L. pose proof L as [A [B C]]. assert (L1 : liquid p t1). { split; [lra|]. split; [|exact C]. assert (if97_psat (t1 + 273.15) < if97_psat (t2 + 273.15)) by (apply psat_mono; lra). lra. }
  apply sdc_T; [cbn; tauto|lra|exact H1|lra|exact (floor1 _ _ L1)|]. apply v_incr1; [exact H0|exact H1|exact (liq_wide _ _ L)].
Qed.
Lemma sdc2_T p t1 t2 : vapour p t1 -> t1 < t2 -> t2 <= 800 -> ptR 2 OSDC p t2 < ptR 2 OSDC p t1.
Proof.
  intros V H1 H2. pose proof (proj1 V) as A. apply sdc_T; [cbn; tauto|lra|exact H1|lra|exact (floor2 _ _ V)|]. apply v_incr2; [exact (vap_wide _ _ V)|exact H1|unfold Kc; lra].
Qed.
Lemma sdc5_T p t1 t2 : hot_gas p t1 -> t1 < t2 -> t2 <= 2000 -> ptR 5 OSDC p t2 < ptR 5 OSDC p t1.
Proof.
  intros V H1 H2. pose proof V as [A B]. apply sdc_T; [cbn; tauto|lra|exact H1|lra|exact (floor5 _ _ V)|]. apply v_incr5; [exact V|split; lra|exact H1].
Qed.
Lemma sdc_gt1 r p t : In r [1; 2; 5]%Z -> 0 <= t <= 2000 -> 1 / 1100 < ptR r OV p t -> 1 < ptR r OSDC p t.
Proof.
  intros Hr Ht F. rewrite osdc by exact Hr. destruct (inv_le _ (Rlt_le _ _ F)) as [F1 F2]. apply Rle_lt_trans with (eps 0 (t + 273.15)); [rewrite eps_0; lra|apply eps_incr; lra].
Qed.
Lemma sdc_above r p t : r = 1%Z /\ liquid p t \/ r = 2%Z /\ vapour p t \/ r = 5%Z /\ hot_gas p t -> 1 < ptR r OSDC p t.
Proof.
  intros [[-> L]|[[-> V]|[-> G]]]; (apply sdc_gt1; [cbn; tauto| |]); [destruct L; lra|exact (floor1 _ _ L)|destruct V; lra|exact (floor2 _ _ V)|destruct G; lra|exact (floor5 _ _ G)].
Qed.
