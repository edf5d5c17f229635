(* The region map of hs in region 1. *)
From Coq Require Import ZArith Floats Reals List Bool Lra Lia.
From Coquelicot Require Import Coquelicot.
From Interval Require Import Tactic.
From Verif Require Import Num RealInst Constant Boundaries Reg1 Reg1Back Reg2 Reg2Back Reg3 Reg3Td Reg5 Reg5Back Region Api Spec SpecReal SatInv RealSat RSums Gibbs GibbsModel
  SpecThermo ThermoApi FloatErr FloatUp Steps Taylor TaylorSum Enc1 Enc2 Enc2hs Enc2m Enc1m Bound1 Tree1 Bound2 Tree2 Bound2hs Bound2m Bound1m Tree2m Tree1m HsLine HsBase
  SpecSub3 SpecStable SpecSteam SpecGas SpecHs ThermoPts GibbsModel5 Stab1 Stab2 Stab5 Expand Back2 Back2hs Map12 MapHs.
Import ListNotations.
Open Scope R_scope.

(* ---- h and s of a state ---- *)
Lemma h_1r p t : formula_domain 1 p t -> ptR 1 OH p t = h1r (vx p) (vy (t + Kc)).
Proof.
  intros D. pose proof D as (_ & Tp & _). change (t + 273.15) with (t + Kc) in Tp. rewrite (a_h _ _ _ (facts1 p t D)). unfold f_h, h1r, Rw. change (Gib 1) with Gib1.
  change (G_t Gib1 (p / G_ps Gib1) (G_Ts Gib1 / (t + Kc))) with (Py Tb (vx p) (vy (t + Kc))). change (G_Ts Gib1) with (13860 / 10). field.
Qed.
Lemma s_1r p t : formula_domain 1 p t -> ptR 1 OS p t = s1r (vx p) (vy (t + Kc)).
Proof.
  intros D. pose proof D as (_ & Tp & _). change (t + 273.15) with (t + Kc) in Tp. rewrite (a_s _ _ _ (facts1 p t D)). unfold f_s, s1r, Rw. change (Gib 1) with Gib1.
  change (G_t Gib1 (p / G_ps Gib1) (G_Ts Gib1 / (t + Kc))) with (Py Tb (vx p) (vy (t + Kc))).
  change (G_0 Gib1 (p / G_ps Gib1) (G_Ts Gib1 / (t + Kc))) with (P Tb (vx p) (vy (t + Kc))). change (G_Ts Gib1) with (13860 / 10).
  replace (vy (t + Kc) + 1222 / 1000) with (13860 / 10 / (t + Kc)) by (unfold vy; ring). generalize (13860 / 10 / (t + Kc)). intros u. field.
Qed.
Lemma vx100 : vx 100 = x100. Proof. unfold vx, x100. field. Qed.

(* ---- along an isotherm: the height above a polynomial in s ---- *)
Section Iso.
Variables (tb : list (Z * Z * dec)) (y : R).
Let f (x : R) := P (map rrow tb) 1 (zr (s1r x y)) - h1r x y.
Let df (x : R) := 461526 / 1000000 * (slr (Px Tb x y) (Pxy Tb x y) (y + 1222 / 1000) (Py (map rrow tb) 1 (zr (s1r x y))) + 3225 / 100).
Lemma f_der x : x <> 0 -> forallb (fun e : Z * Z * R => (0 <=? fst (fst e))%Z && (0 <=? snd (fst e))%Z) (map rrow tb) = true -> is_derive f x (df x).
Proof.
  intros N E.
  assert (Ds : is_derive (fun x => s1r x y) x (461526 / 1000000 * ((y + 1222 / 1000) * Pxy Tb x y - Px Tb x y))).
  { unfold s1r. apply is_derive_scal. apply (is_derive_minus (K := R_AbsRing) (V := R_NormedModule)); [|apply P_x; exact N]. apply is_derive_scal. apply Py_x. exact N. }
  assert (Dz : is_derive (fun x => zr (s1r x y)) x (200 / 337 * (461526 / 1000000 * ((y + 1222 / 1000) * Pxy Tb x y - Px Tb x y)))).
  { unfold zr. match goal with |- is_derive _ _ ?e => replace e with (e + 0) by ring end.
    apply (is_derive_plus (K := R_AbsRing) (V := R_NormedModule)); [apply is_derive_scal; exact Ds|apply @is_derive_const]. }
  pose proof (P_curve (fun _ => 1) (fun x => zr (s1r x y)) x 0 _ (is_derive_const (K := R_AbsRing) (V := R_NormedModule) 1 x) Dz (map rrow tb) E) as Dp.
  assert (Dh : is_derive (fun x => h1r x y) x (639675036 / 1000000 * Pxy Tb x y)) by (unfold h1r; apply is_derive_scal, Py_x; exact N).
  pose proof (is_derive_minus (K := R_AbsRing) (V := R_NormedModule) _ _ _ _ _ Dp Dh) as D.
  unfold f. match type of D with is_derive _ _ ?e => replace (df x) with e end; [exact D|]. unfold df, slr.
  clear. set (A := Px Tb x y). set (B := Pxy Tb x y). set (d := Py (map rrow tb) 1 (zr (s1r x y))). set (e := Px (map rrow tb) 1 (zr (s1r x y))). clearbody A B d e.
  match goal with |- @eq _ (minus ?a ?b) ?c => change (@eq R (Rminus a b) c) end. field.
Qed.
Lemma f_slope x1 x2 : 0 < x1 -> x1 <= x2 -> forallb (fun e : Z * Z * R => (0 <=? fst (fst e))%Z && (0 <=? snd (fst e))%Z) (map rrow tb) = true ->
  (forall x, x1 <= x <= x2 -> 0 < slr (Px Tb x y) (Pxy Tb x y) (y + 1222 / 1000) (Py (map rrow tb) 1 (zr (s1r x y)))) -> f x1 + 14884 / 1000 * (x2 - x1) <= f x2.
Proof.
  intros P L E H. pose proof (slope_le (fun x => - f x) (fun x => - df x) x1 x2 (-14884 / 1000) L) as M.
  cut (- f x2 - - f x1 <= -14884 / 1000 * (x2 - x1)); [lra|]. apply M; intros x Hx.
  - apply (is_derive_opp (K := R_AbsRing) (V := R_NormedModule)). apply f_der; [lra|exact E].
  - specialize (H x Hx). unfold df. lra.
Qed.
End Iso.

(* the branches of the code *)
Lemma hs1_logic (c h s : R) : s <= c -> c < 3.5 ->
  @pT2s_reg1 RArith (1000 / 10)%R (27315 / 100)%R <= s -> c < @pT2s_reg1 RArith (1000 / 10)%R (62315 / 100)%R ->
  c < @pT2s_reg5 RArith (500 / 10)%R (107315 / 100)%R ->
  @hs_region_h1_s RArith s <= h ->
  (h <= @pT2h_reg1 RArith (1000 / 10)%R (@ps2T_reg1 RArith (1000 / 10)%R s - 218 / 10000)%R -> @hs_sub_region RArith h s = 1%Z) /\
  (@pT2h_reg1 RArith (1000 / 10)%R (@ps2T_reg1 RArith (1000 / 10)%R s - 218 / 10000)%R < h ->
   c < @pT2s_reg1 RArith (@Ps_623 RArith) (62315 / 100)%R -> c < @pT2s_reg2 RArith (1000 / 10)%R (107315 / 100)%R -> c < @pT2s_reg2 RArith (40 / 10)%R (107315 / 100)%R ->
   c < @pT2s_reg2 RArith P_MIN (27315 / 100)%R -> @hs_sub_region RArith h s = INVALID_VALUE).
Proof.
  unfold hs_sub_region.
  set (f1s := @pT2s_reg1 RArith). set (f1h := @pT2h_reg1 RArith). set (f2s := @pT2s_reg2 RArith). set (f2h := @pT2h_reg2 RArith). set (f5s := @pT2s_reg5 RArith). set (f5h := @pT2h_reg5 RArith).
  set (gab := @hs_region_h2ab_s RArith). set (gcb := @hs_region_h2c3b_s RArith). set (gt := @hs_region_t_hs RArith). set (g3a := @hs_region_h3a_s RArith). set (g1 := @hs_region_h1_s RArith). set (g13 := @hs_region_h13_s RArith).
  set (ps2 := @ps2T_reg2 RArith). set (ps1 := @ps2T_reg1 RArith). set (ps3 := @ps2T_reg3 RArith). set (pv3 := @ps2v_reg3 RArith). set (th3 := @Td2h_reg3 RArith).
  set (q2 := @hs2p_reg2 RArith). set (q2c := @hs2p_reg2c RArith). set (q2a := @hs2p_reg2a RArith). set (q5 := @hs2p_reg5 RArith). set (ph5 := @ph2T_reg5 RArith). set (b23 := @B23_T2p RArith).
  unfold SC_WATER.
  set (ps6 := @Ps_623 RArith). set (pm := @P_MIN RArith).
  clearbody f1s f1h f2s f2h f5s f5h gab gcb gt g3a g1 g13 ps2 ps1 ps3 pv3 th3 q2 q2c q2a q5 ph5 b23 ps6 pm.
  intros A0 A1 A2 A3 A4 A5. split.
  - intros A6. rnum. unfold Rlt_b, Rle_b. bf. bt. bf. bt. reflexivity.
  - intros A6 B1 B2 B3 B4. rnum. unfold Rlt_b, Rle_b. bf. bt. bf. bf. bf. bf. bf. bf. bf. bf. bf. bf. bf. reflexivity.
Qed.

(* ---- the states up to 310 C ---- *)
Definition cool (p t : R) : Prop := 0 <= t <= 310 /\ if97_psat (t + 273.15) + 0.005 <= p <= 100.
Section Cool.
Variables p t : R.
Hypothesis C : cool p t.
Let T := t + Kc.
Let HT : 273.15 <= T <= 583.15. Proof. destruct C as [H _]. unfold T, Kc. lra. Qed.
Let ps := if97_psat T.
Let Lp : ps + 0.005 <= p <= 100. Proof. exact (proj2 C). Qed.
Let y := vy T.
Lemma c_wide a : ps <= a <= 100 -> wide1 a T.
Proof. intros H. pose proof HT. split; [lra|]. unfold ps in H. lra. Qed.
Lemma c_liq : liquid p t. Proof. destruct C as [H1 H2]. split; lra. Qed.
Let ps0 : 6 / 10000 < ps.
Proof. pose proof HT. pose proof psat_273. unfold ps. destruct (Req_dec T 273.15) as [->|E]; [lra|]. assert (if97_psat 273.15 < if97_psat T) by (apply psat_mono; lra). lra. Qed.
Let ybox : val my583 <= y <= val by1.
Proof.
  pose proof HT. unfold y, vy, my583, by1. flv. assert (13860 / 10 / 583.15 <= 13860 / 10 / T <= 13860 / 10 / 273.15); [|lra].
  split; apply Rmult_le_compat_l; try lra; apply Rinv_le_contravar; lra.
Qed.
Lemma c_F a : ps <= a <= 100 -> F1 (vx a) y.
Proof. intros H. destruct (wide_in _ _ (c_wide a H)) as [[B1 B2] G]. apply cov_1m; [exact B1|exact ybox|exact G]. Qed.
Let dom a (H : ps <= a <= 100) : formula_domain 1 a t := wide_dom _ _ _ (c_wide a H) eq_refl.
Let h := ptR 1 OH p t. Let s := ptR 1 OS p t.
Let hr : h = h1r (vx p) y. Proof. pose proof Lp. apply h_1r, dom. lra. Qed.
Let sr : s = s1r (vx p) y. Proof. pose proof Lp. apply s_1r, dom. lra. Qed.
Let Fp : F1 (vx p) y. Proof. pose proof Lp. apply c_F. lra. Qed.
Lemma c_hi : s < val f336. Proof. rewrite sr. exact (proj1 Fp). Qed.
Lemma c_h : -1 < h. Proof. rewrite hr. exact (proj1 (proj2 Fp)). Qed.
(* on the saturation line *)
Lemma c_sat : U1r (s1r (vx ps) y) < h1r (vx ps) y + / 256.
Proof.
  pose proof HT as H. set (w := 540 / (T + 1 / 10) - 1 / 2). assert (E : Ts_of w = T) by (unfold Ts_of, yT, w; field; lra).
  assert (W : 540 / 583.25 - 1 / 2 <= w <= 540 / 273.25 - 1 / 2).
  { unfold w. assert (540 / 583.25 <= 540 / (T + 1 / 10) <= 540 / 273.25); [|lra]. split; apply Rmult_le_compat_l; try lra; apply Rinv_le_contravar; lra. }
  pose proof (cov_S w) as S. rewrite E in S. assert (Ey : yS w = y).
  { unfold yS, y, vy. rewrite E. field. lra. }
  assert (Ex : xS (bs w) = vx ps).
  { unfold xS, bs, vx, ps, xq. rewrite E, psat_be. field. }
  rewrite Ey, Ex in S. apply S; [|lra].
  assert (V : val 0x1.b4p-2%float <= 540 / 583.25 - 1 / 2) by (flv; lra).
  assert (V2 : 540 / 273.25 - 1 / 2 <= val (endp 0%float guess1)).
  { match goal with |- _ <= val ?f => let q := eval vm_compute in f in change f with q end. flv. lra. }
  lra.
Qed.
Let xp0 a : 0 <= a <= 100 -> 0 < vx a. Proof. intros H. unfold vx. lra. Qed.
Lemma c_low : U1r s < h.
Proof.
  pose proof Lp as L. pose proof ps0 as P0. pose proof (f_slope tU1 y (vx p) (vx ps) (xp0 p ltac:(lra))) as F. unfold U1r in *. rewrite sr, hr.
  assert (X : vx p <= vx ps) by (unfold vx; lra). specialize (F X ltac:(vm_compute; reflexivity)).
  assert (Fx : forall x, vx p <= x <= vx ps -> 0 < slr (Px Tb x y) (Pxy Tb x y) (y + 1222 / 1000) (Py (map rrow tU1) 1 (zr (s1r x y)))).
  { intros x Hx. replace x with (vx (xp x)) by (unfold vx, xp; field). apply (c_F (xp x)). unfold vx in Hx. unfold xp. lra. }
  specialize (F Fx). pose proof c_sat as S. unfold U1r in S. unfold vx in X, F at 2 3 |- *. unfold vx in S. unfold vx in F. lra.
Qed.
Lemma c_top : p <= 99.8 -> h < L1r s.
Proof.
  intros Up. pose proof Lp as L. pose proof ps0 as P0. pose proof (f_slope tL1 y (vx 100) (vx p) (xp0 100 ltac:(lra))) as F. unfold L1r in *. rewrite sr, hr.
  assert (X : vx 100 <= vx p) by (unfold vx; lra). specialize (F X ltac:(vm_compute; reflexivity)).
  assert (Fx : forall x, vx 100 <= x <= vx p -> 0 < slr (Px Tb x y) (Pxy Tb x y) (y + 1222 / 1000) (Py (map rrow tL1) 1 (zr (s1r x y)))).
  { intros x Hx. replace x with (vx (xp x)) by (unfold vx, xp; field). apply (c_F (xp x)). unfold vx in Hx. unfold xp. lra. }
  specialize (F Fx). pose proof (cov_t y ybox) as S. unfold L1r in S. rewrite vx100 in F. assert (E : vx p - x100 = (100 - p) / 16.53) by (unfold vx, x100; lra). rewrite E in F. lra.
Qed.
(* the smallest entropy of the code *)
Lemma s_00 a : wide1 a 273.15 -> @pT2s_reg1 RArith a (27315 / 100)%R = s1r (vx a) y273r.
Proof.
  intros W. set (t0 := 273.15 - Kc). assert (K : t0 + Kc = 273.15) by (unfold t0; ring). 
  assert (D : formula_domain 1 a t0) by (apply (wide_dom a 273.15); [exact W|rewrite K; reflexivity]).
  pose proof (s_1r a t0 D) as E. rewrite K in E. replace (vy 273.15) with y273r in E by (unfold vy, y273r; replace 273.15 with (27315 / 100) by lra; field). rewrite <- E.
  unfold ptR. change (@pt RArith a t0 (from_pair (OS, 1%Z))) with (@pT2s_reg1 RArith a (t0 + Kc)%R). rewrite K. replace 273.15 with (27315 / 100) by lra. reflexivity.
Qed.
Lemma s_cold : ptR 1 OS p (273.15 - Kc) <= s.
Proof.
  set (t0 := 273.15 - Kc). pose proof Lp as L. pose proof HT as H. destruct (Req_dec t0 t) as [E|E]; [unfold s; rewrite E; lra|].
  left. apply s_incr1; [unfold t0; lra|unfold t0, T in *; lra|apply c_wide; lra].
Qed.
Let W273 : wide1 p 273.15. Proof. pose proof Lp as L. apply (wide_iso p T); [apply c_wide; lra|pose proof HT; lra]. Qed.
Let W100 : wide1 100 273.15. Proof. pose proof psat_273. split; [lra|]. lra. Qed.
Lemma s_cold' : s1r (vx p) y273r <= s.
Proof.
  pose proof s_cold as H. set (t0 := 273.15 - Kc) in *. rewrite <- (s_00 p W273). replace (27315 / 100) with (t0 + Kc) by (unfold t0, Kc; lra). exact H.
Qed.
Lemma c_lo : p <= 99.8 \/ p = 100 -> @pT2s_reg1 RArith (1000 / 10)%R (27315 / 100)%R <= s.
Proof.
  intros H. replace (1000 / 10) with 100 by lra. rewrite (s_00 100 W100), vx100. pose proof s_cold' as S. destruct H as [H|H].
  - pose proof s_min as M. pose proof Lp. pose proof ps0. assert (val fsm < s1r (vx p) y273r); [|lra]. apply cov_0. unfold vx, mx998, bx1. flv. lra.
  - rewrite <- vx100, <- H. exact S.
Qed.
Lemma c_rng : p <= 99.8 \/ p = 100 -> val fs0 <= s <= val f336.
Proof.
  intros H. pose proof (c_lo H) as L. replace (1000 / 10) with 100 in L by lra. rewrite (s_00 100 W100), vx100 in L. pose proof s_min0. pose proof c_hi. lra.
Qed.
Lemma c_line : p <= 99.8 \/ p = 100 -> @hs_region_h1_s RArith s <= h.
Proof.
  intros H. unfold hs_region_h1_s. cbv zeta. rewrite poly_powi_P. change (@hs_region_h1_s_IJn RArith) with (map rrow tab_h1). set (f := P (map rrow tab_h1)). rnum.
  match goal with |- context[if ?c then _ else _] => destruct c end.
  - pose proof c_h. unfold INVALID_S. lra.
  - pose proof (cov_u s (c_rng H)) as U. unfold hlr in U. fold f in U. pose proof c_low.
    replace (s / (38 / 10) - 109 / 100) with (10 / 38 * s + -109 / 100) by field. replace (s / (38 / 10) + 366 / 10000000) with (10 / 38 * s + 366 / 10000000) by field. lra.
Qed.
(* the limit of the code at 100 MPa *)
Lemma h_top : 0 < y100 s -> @pT2h_reg1 RArith (1000 / 10)%R (@ps2T_reg1 RArith (1000 / 10)%R s - 218 / 10000)%R = h1r x100 (y100 s).
Proof.
  intros Yp. replace (1000 / 10) with 100 by lra.
  assert (E : @ps2T_reg1 RArith 100%R s = T100 s).
  { unfold ps2T_reg1, T100. cbv zeta. rewrite poly_powi_P. change (@ps2T_reg1_IJn RArith) with (map rrow tps1). set (f := P (map rrow tps1)). rnum.
    replace (100 / (10 / 10)) with 100 by field. replace (s / (10 / 10) + 20 / 10) with (1 / 1 * s + 2 / 1) by field. lra. }
  rewrite E. unfold y100 in *. replace (1 / 1 * T100 s + -218 / 10000) with (T100 s - 218 / 10000) in * by lra. set (z := T100 s - 218 / 10000) in *.
  assert (Q : z <> 0) by (intros Q; rewrite Q, Rinv_0 in Yp; lra).
  assert (Z : 0 < z) by (rewrite <- (Rinv_involutive z) by exact Q; apply Rinv_0_lt_compat; lra).
  assert (Z2 : 1.222 * z < 1386).
  { assert (E1 : (1386 / 1 * / z + -1222 / 1000) * z = 1386 - 1.222 * z) by (replace 1.222 with (1222 / 1000) by lra; field; exact Q).
    pose proof (Rmult_lt_0_compat _ _ Yp Z). lra. }
  set (t0 := z - Kc). assert (K : t0 + Kc = z) by (unfold t0; ring).
  assert (D : formula_domain 1 100 t0). { unfold formula_domain. change (t0 + 273.15) with (t0 + Kc). rewrite K. split; [lra|]. split; [lra|]. left. split; [reflexivity|]. split; lra. }
  pose proof (h_1r 100 t0 D) as X. rewrite K, vx100 in X. replace (1386 / 1 * / z + -1222 / 1000) with (vy z) by (unfold vy; field; exact Q). rewrite <- X.
  unfold ptR. change (@pt RArith 100%R t0 (from_pair (OH, 1%Z))) with (@pT2h_reg1 RArith 100%R (t0 + Kc)%R). now rewrite K.
Qed.
End Cool.

(* ---- the region ---- *)
Lemma v336 : val f336 < 3.5. Proof. unfold f336. flv. lra. Qed.
Lemma s5_50 : 3.5 < @pT2s_reg5 RArith (500 / 10)%R (107315 / 100)%R.
Proof.
  replace (500 / 10) with 50 by lra. replace (107315 / 100) with (800 + Kc) by (unfold Kc; lra). change (@pT2s_reg5 RArith 50%R (800 + Kc)%R) with (ptR 5 OS 50 800).
  rewrite (a_s _ _ _ (pt_facts _ _ _ (dom5_gas _ _ gas8))). unfold f_s. tab. interval with (i_prec 60).
Qed.
Lemma s13_100 : val f336 < @pT2s_reg1 RArith (1000 / 10)%R (62315 / 100)%R.
Proof.
  replace (1000 / 10) with 100 by lra. set (t0 := 623.15 - Kc). assert (K : t0 + Kc = 623.15) by (unfold t0; ring).
  assert (W : wide1 100 623.15) by (pose proof psat_623; split; lra).
  pose proof (s_1r 100 t0 (wide_dom 100 623.15 t0 W (eq_sym K))) as E. rewrite K, vx100 in E. replace (vy 623.15) with y623m in E by (unfold vy, y623m; replace 623.15 with (62315 / 100) by lra; field).
  replace (@pT2s_reg1 RArith 100%R (62315 / 100)%R) with (s1r x100 y623m); [exact s_13|]. rewrite <- E.
  unfold ptR. change (@pt RArith 100%R t0 (from_pair (OS, 1%Z))) with (@pT2s_reg1 RArith 100%R (t0 + Kc)%R). rewrite K. replace 623.15 with (62315 / 100) by lra. reflexivity.
Qed.
Lemma map_hs1 p t : pressed p t -> @hs_sub_region RArith (ptR 1 OH p t) (ptR 1 OS p t) = 1%Z.
Proof.
  intros [H1 H2]. assert (C : cool p t) by (split; lra). assert (O : p <= 99.8 \/ p = 100) by (left; lra).
  pose proof v336 as V. pose proof s5_50 as S5. pose proof (c_hi p t C) as Hi. pose proof (c_rng p t C O) as Rg. destruct (cov_l _ Rg) as [Y1 Y2].
  apply (hs1_logic (val f336)); [lra|exact V|exact (c_lo p t C O)|exact s13_100|lra|exact (c_line p t C O)|].
  rewrite (h_top p t Y1). pose proof (c_top p t C ltac:(lra)). lra.
Qed.
Lemma psat_583 : if97_psat 583.15 < 10. Proof. unfold if97_psat. cbv zeta. interval. Qed.
Lemma cool100 t : 0 <= t <= 310 -> cool 100 t.
Proof.
  intros H. split; [exact H|]. pose proof psat_583. destruct (Req_dec (t + 273.15) 583.15) as [->|E]; [lra|]. assert (if97_psat (t + 273.15) < if97_psat 583.15) by (apply psat_mono; lra). lra.
Qed.
Lemma s8_big x : 4 <= x <= 100 -> 3.5 < @pT2s_reg2 RArith x (107315 / 100)%R.
Proof.
  intros H. set (t8 := 1073.15 - Kc). assert (K : t8 + Kc = 1073.15) by (unfold t8; ring). replace (107315 / 100) with (t8 + Kc) by (unfold t8, Kc; lra).
  change (@pT2s_reg2 RArith x (t8 + Kc)%R) with (ptR 2 OS x t8). pose proof psat_273 as Q.
  assert (W : wide2 x (t8 + Kc)) by (rewrite K; apply w8; lra). pose proof (s2_big x t8 W (al0_min x ltac:(lra))). lra.
Qed.
Lemma top_hs1 t : 0 <= t <= 310 -> @hs_sub_region RArith (ptR 1 OH 100 t) (ptR 1 OS 100 t) = INVALID_VALUE.
Proof.
  intros H. pose proof (cool100 t H) as C. assert (O : 100 <= 99.8 \/ 100 = 100) by (right; reflexivity).
  pose proof v336 as V. pose proof s5_50 as S5. pose proof (c_hi 100 t C) as Hi.
  assert (Y : val my583 <= vy (t + Kc) <= val by1).
  { assert (HT : 273.15 <= t + Kc <= 583.15) by (unfold Kc; lra). set (T := t + Kc) in *. clearbody T. unfold vy, my583, by1. flv.
    assert (13860 / 10 / 583.15 <= 13860 / 10 / T <= 13860 / 10 / 273.15); [|lra]. split; apply Rmult_le_compat_l; try lra; apply Rinv_le_contravar; lra. }
  assert (D : formula_domain 1 100 t) by (apply (wide_dom 100 (t + Kc)); [apply (c_wide 100 t C); destruct C as [_ C2]; change (t + 273.15) with (t + Kc) in C2; lra|reflexivity]).
  destruct (cov_r _ Y) as [Y1 Y2]. rewrite <- vx100 in Y1. rewrite <- (s_1r 100 t D) in Y1.
  apply (hs1_logic (val f336)); [lra|exact V|exact (c_lo 100 t C O)|exact s13_100|lra|exact (c_line 100 t C O)| | | | |].
  - rewrite (h_top 100 t Y1), (h_1r 100 t D), (s_1r 100 t D), vx100. exact Y2.
  - apply Rlt_trans with 3.5; [exact V|]. unfold Ps_623. rnum. set (t0 := 623.15 - Kc). assert (K : t0 + Kc = 623.15) by (unfold t0; ring).
    replace (62315 / 100) with (t0 + Kc) by (unfold t0, Kc; lra). change (3.5 < ptR 1 OS (165291642526045 / 10000000000000) t0).
    assert (W : wide1 (165291642526045 / 10000000000000) (t0 + Kc)) by (rewrite K; pose proof psat_623; split; lra).
    rewrite (a_s _ _ _ (facts1 _ _ (wide_dom _ _ _ W eq_refl))). rewrite K. unfold f_s. tab. interval with (i_prec 60).
  - apply Rlt_trans with 3.5; [exact V|]. replace (1000 / 10) with 100 by lra. apply s8_big. lra.
  - apply Rlt_trans with 3.5; [exact V|]. apply s8_big. lra.
  - apply Rlt_trans with 3.5; [exact V|]. unfold P_MIN. rnum. rewrite s2_of by lra. rewrite wy273. fold pmin. pose proof (proj1 n_4v). lra.
Qed.
Lemma hs_map1 fuel p t : pressed p t -> @hs RArith fuel (ptR 1 OH p t) (ptR 1 OS p t) (from_i32 OR) = Some 1.
Proof. intros H. rewrite hs_or, (map_hs1 p t H). reflexivity. Qed.
Lemma hs_auto1 fuel p t o : pressed p t ->
  @hs RArith fuel (ptR 1 OH p t) (ptR 1 OS p t) (from_i32 o) = @hs RArith fuel (ptR 1 OH p t) (ptR 1 OS p t) (from_pair (o, 1%Z)).
Proof.
  intros H. pose proof (map_hs1 p t H) as M. set (h := ptR 1 OH p t) in *. set (s := ptR 1 OS p t) in *.
  unfold hs, pair_properties_o, from_i32, from_pair, o_id_reg_info. rewrite M. reflexivity.
Qed.
Lemma hs_pauto1 fuel p t : pressed p t -> exists q,
  @hs RArith fuel (ptR 1 OH p t) (ptR 1 OS p t) (from_i32 OP) = Some q /\ Rabs (q - p) <= 0.015.
Proof. intros H. rewrite (hs_auto1 fuel p t OP H). apply hs_p1. destruct H as [H1 H2]. split; lra. Qed.
Lemma hs_100 fuel t : 0 <= t <= 310 -> liquid 100 t /\ @hs RArith fuel (ptR 1 OH 100 t) (ptR 1 OS 100 t) (from_i32 OR) = Some (-9999).
Proof. intros H. split; [exact (c_liq 100 t (cool100 t H))|]. rewrite hs_or, (top_hs1 t H). reflexivity. Qed.
Lemma hs_100_not : exists p t, liquid p t /\ t <= 310 /\
  forall fuel, @hs RArith fuel (ptR 1 OH p t) (ptR 1 OS p t) (from_i32 OR) <> Some 1.
Proof.
  exists 100, 20. destruct (hs_100 1%positive 20 ltac:(lra)) as [L _]. split; [exact L|]. split; [lra|].
  intros fuel E. rewrite (proj2 (hs_100 fuel 20 ltac:(lra))) in E. injection E. lra.
Qed.
