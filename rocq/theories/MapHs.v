(* The region map of hs in region 2. *)
From Coq Require Import ZArith Floats Reals List Bool Lra Lia.
From Coquelicot Require Import Coquelicot.
From Interval Require Import Tactic.
From Verif Require Import Num RealInst Constant Boundaries Reg1 Reg1Back Reg2 Reg2Back Reg3 Reg3Td Reg5 Reg5Back Region Api Spec SpecReal SatInv RealSat RSums Gibbs GibbsModel
  SpecThermo ThermoApi FloatErr FloatUp Steps Taylor TaylorSum Enc1 Enc2 Enc2hs Enc2m Bound1 Tree1 Bound2 Tree2 Bound2hs Bound2m Tree2m HsLine HsBase
  SpecSub3 SpecStable SpecSteam SpecGas SpecHs ThermoPts GibbsModel5 Stab1 Stab2 Stab5 Expand Back2 Back2hs Map12.
Import ListNotations.
Open Scope R_scope.

(* ---- a table polynomial along a curve ---- *)
Lemma is_derive_pwn i x : (0 <= i)%Z -> is_derive (fun x => powerRZ x i) x (IZR i * powerRZ x (i - 1)).
Proof.
  intros Hi. destruct i as [|n|n]; [| |lia].
  - rewrite Rmult_0_l. cbn [powerRZ]. apply @is_derive_const.
  - cbn [powerRZ]. destruct (Pos2Nat.is_succ n) as [m Hm].
    replace (IZR (Z.pos n) * powerRZ x (Z.pos n - 1)) with (INR (Pos.to_nat n) * 1 * x ^ pred (Pos.to_nat n)).
    + apply (is_derive_pow (fun x => x)). apply @is_derive_id.
    + replace (IZR (Z.pos n)) with (INR (Pos.to_nat n)) by (rewrite INR_IZR_INZ, positive_nat_Z; reflexivity).
      replace (Z.pos n - 1)%Z with (Z.of_nat m) by lia. rewrite <- pow_powerRZ, Hm. cbn [pred]. ring.
Qed.
Section Curve.
Variables (f g : R -> R) (a f' g' : R).
Hypothesis Df : is_derive f a f'.
Hypothesis Dg : is_derive g a g'.
Lemma P_curve l : forallb (fun e : Z * Z * R => (0 <=? fst (fst e))%Z && (0 <=? snd (fst e))%Z) l = true ->
  is_derive (fun a => P l (f a) (g a)) a (Px l (f a) (g a) * f' + Py l (f a) (g a) * g').
Proof.
  induction l as [|[[i j] n] l IH]; intros H.
  - unfold P, Px, Py. cbn. replace (0 * f' + 0 * g') with 0 by ring. apply @is_derive_const.
  - cbn [forallb fst snd] in H. apply andb_true_iff in H as [H H2]. apply andb_true_iff in H as [H0 H1]. apply Z.leb_le in H0, H1. specialize (IH H2).
    unfold P, Px, Py in *. 
    apply (is_derive_ext (fun a => n * (powerRZ (f a) i * powerRZ (g a) j) + tsum l (fun i j => powerRZ (f a) i * powerRZ (g a) j))); [intros; reflexivity|].
    rewrite !tsum_cons. cbn [fst snd].
    match goal with |- is_derive _ _ ?e => replace e with (n * ((f' * (IZR i * powerRZ (f a) (i - 1))) * powerRZ (g a) j + powerRZ (f a) i * (g' * (IZR j * powerRZ (g a) (j - 1))))
      + (tsum l (fun i j => IZR i * powerRZ (f a) (i - 1) * powerRZ (g a) j) * f' + tsum l (fun i j => powerRZ (f a) i * (IZR j * powerRZ (g a) (j - 1))) * g')) by ring end.
    apply (is_derive_plus (K := R_AbsRing) (V := R_NormedModule)); [|exact IH]. apply is_derive_scal.
    apply (is_derive_mult (fun a => powerRZ (f a) i) (fun a => powerRZ (g a) j)); [| |intros; apply Rmult_comm].
    + apply (is_derive_comp (fun x => powerRZ x i) f); [apply is_derive_pwn; exact H0|exact Df].
    + apply (is_derive_comp (fun x => powerRZ x j) g); [apply is_derive_pwn; exact H1|exact Dg].
Qed.
End Curve.

(* ---- the temperature on the boundary with region 3 ---- *)
Section Th.
Variables (p t t0 : R).
Hypothesis B : base p t0.
Hypothesis Lt : t0 <= t.
Hypothesis Ut : t + Kc <= 1073.15.
Hypothesis Up : p <= 99.8.
Let W := proj1 B.
Let h (a : R) := ptR 2 OH p a. Let s (a : R) := ptR 2 OS p a.
Let q := sqrt (sqrt p).
Lemma q4 : xq q = p. Proof. exact (q4p p t0 W). Qed.
Lemma qp : 0 < q. Proof. exact (q_pos p t0 W). Qed.
Lemma q_am : 3.6 <= p -> val am3 <= q <= val am4.
Proof.
  intros L. pose proof qp as Q. unfold am3, am4. flv. split.
  - apply Rsqr_incr_0_var; [|lra]. apply Rsqr_incr_0_var; [|apply Rle_0_sqr]. unfold Rsqr. fold (xq q). rewrite q4. lra.
  - apply Rsqr_incr_0_var; [|lra]. apply Rsqr_incr_0_var; [|apply Rle_0_sqr]. unfold Rsqr. fold (xq q). rewrite q4. lra.
Qed.
Let Ws a : t0 <= a <= t -> wide2 p (a + Kc). Proof. intros H. apply (wide2_iso _ _ _ W). lra. Qed.
Lemma FM_at a : t0 <= a <= t -> 3.6 <= p -> 
  (s a <= val f604 -> val f526l <= s a \/ val f2812l <= h a -> val f509 < s a /\ h a < Ltopr (s a)) /\
  (s a <= val f526h -> h a <= val f2812h -> 0 < sabr (h a) (s a) /\ Taur (h a) (s a) < a + Kc).
Proof.
  intros Ha L. pose proof (Ws a Ha) as Wa. destruct (wide2_in _ _ Wa) as [I G]. pose proof (cov_m q (wy (a + Kc)) (q_am L) (proj2 I) qp ltac:(rewrite q4; exact G)) as F.
  unfold FM in F. rewrite q4 in F. cbv zeta in F. rewrite <- (h_f2 p a Wa), <- (s_f2 p a Wa), yT_wy in F; [exact F|]. pose proof (proj1 (proj2 Wa)). lra.
Qed.
Hypothesis Sh : s t <= val f526h.
Hypothesis Hh : h t <= val f2812h.
Lemma TL_up : 3.6 <= p -> TLr (h t0) (s t0) <= TLr (h t) (s t) /\ 2563 <= h t /\ 580 < TLr (h t0) (s t0).
Proof.
  intros L. pose proof line_vals as V. 
  assert (Hs : forall a, t0 <= a <= t -> s t0 <= s a <= s t /\ h t0 <= h a <= h t /\ val f504 < s a).
  { intros a Ha. pose proof (Ws a Ha) as Wa. split; [split; apply s_iso; try assumption; lra|]. split; [split; apply h_iso; try assumption; lra|]. apply (s_low p a t0 B); lra. }
  destruct (Hs t0 ltac:(lra)) as (S0 & H0 & S1). destruct (base_th p t0 B ltac:(change (s t0 <= val f526h); lra) ltac:(change (h t0 <= val f2812h); lra)) as [H1 G]. fold (h t0) in H1.
  split; [|split; [lra|apply cov_sl; lra]].
  pose proof (slope_le (fun a => - TLr (h a) (s a)) (fun a => - (Px (map rrow tTL) (uHr (h a)) (uSr (s a)) * (2 / 251 * ptR 2 OCP p a) + Py (map rrow tTL) (uHr (h a)) (uSr (s a)) * (1000 / 107 * (ptR 2 OCP p a / (a + Kc))))) t0 t 0 Lt) as M.
  cut (- TLr (h t) (s t) - - TLr (h t0) (s t0) <= 0 * (t - t0)); [lra|]. apply M; intros a Ha; pose proof (Ws a Ha) as Wa; pose proof (wide2_dom _ _ _ Wa eq_refl) as D.
  - apply (is_derive_opp (K := R_AbsRing) (V := R_NormedModule)). unfold TLr.
    apply (P_curve (fun a => uHr (h a)) (fun a => uSr (s a))); [| |vm_compute; reflexivity].
    + unfold uHr. replace (2 / 251 * ptR 2 OCP p a) with (2 / 251 * ptR 2 OCP p a + 0) by ring.
      apply (is_derive_plus (K := R_AbsRing) (V := R_NormedModule)); [apply is_derive_scal; exact (dH_dt 2 p a D)|apply @is_derive_const].
    + unfold uSr. replace (1000 / 107 * (ptR 2 OCP p a / (a + Kc))) with (1000 / 107 * (ptR 2 OCP p a / (a + Kc)) + 0) by ring.
      apply (is_derive_plus (K := R_AbsRing) (V := R_NormedModule)); [apply is_derive_scal; exact (dS_dt 2 p a D)|apply @is_derive_const].
  - destruct (Hs a Ha) as (Sa & Hha & Sa1). destruct (cov_sl (h a) (s a) ltac:(lra) ltac:(lra)) as (C1 & C2 & _). destruct (proj2 (FM_at a Ha L) ltac:(lra) ltac:(lra)) as [_ T].
    pose proof (cp_pos2 p a Wa) as Cp. pose proof (T_pos2 _ _ Wa) as Tp. unfold sloper in C1. set (x := Px _ _ _) in *. set (y := Py _ _ _) in *. set (c := ptR 2 OCP p a) in *.
    replace (x * (2 / 251 * c) + y * (1000 / 107 * (c / (a + Kc)))) with (c / (a + Kc) * (2 / 251 * (x * (a + Kc)) + 1000 / 107 * y)) by (field; lra).
    assert (x * Taur (h a) (s a) <= x * (a + Kc)) by (apply Rmult_le_compat_l; lra).
    assert (0 <= c / (a + Kc) * (2 / 251 * (x * (a + Kc)) + 1000 / 107 * y)); [|lra]. apply Rmult_le_pos; [left; apply Rdiv_lt_0_compat; assumption|lra].
Qed.
Lemma b23r_eq T : b23r T = if97_b23 T. Proof. unfold b23r, if97_b23. lra. Qed.
(* the pressure of the boundary at the temperature of Eq. T(h,s) exceeds that of the state *)
Lemma th_above : 3.6 <= p -> 1.000125 * p <= if97_b23 (ths (h t) (s t)).
Proof.
  intros L. pose proof line_vals as V. destruct (TL_up L) as (U1 & U2 & U3).
  pose proof (s_low p t t0 B Lt Ut) as S1. fold (s t) in S1.
  pose proof (cov_T (h t) (s t) ltac:(lra) ltac:(lra) U2 ltac:(lra)) as C.
  destruct (base_th p t0 B) as [_ G]; [pose proof (s_iso p t0 t W Lt Ut); fold (s t) (s t0) in *; lra|pose proof (h_iso p t0 t W Lt Ut); fold (h t) (h t0) in *; lra|].
  unfold gspr in G. rewrite b23r_eq in G. fold (h t0) (s t0) in G.
  pose proof (b23_incr (TLr (h t0) (s t0)) (ths (h t) (s t)) ltac:(lra) ltac:(lra)). lra.
Qed.
End Th.

(* ---- the quantities of the code ---- *)
Lemma h2_of p T : 0 < p -> 0 < T < 1080 -> @pT2h_reg2 RArith p T = hv p (wy T).
Proof.
  intros Hp HT. pose proof (h_dom p (T - Kc)) as H. replace (T - Kc + Kc) with T in H by ring. rewrite <- H.
  - unfold ptR. change (@pt RArith p (T - Kc)%R (from_pair (OH, 2%Z))) with (@pT2h_reg2 RArith p ((T - Kc) + Kc)%R). now replace ((T - Kc) + Kc)%R with T by ring.
  - unfold formula_domain. change (T - Kc + 273.15) with (T - Kc + Kc). replace (T - Kc + Kc) with T by ring. split; [exact Hp|]. split; [lra|]. right. left. split; [reflexivity|lra].
Qed.
Lemma s2_of p T : 0 < p -> 0 < T < 1080 -> @pT2s_reg2 RArith p T = sv p (wy T).
Proof.
  intros Hp HT. pose proof (s_dom p (T - Kc)) as H. replace (T - Kc + Kc) with T in H by ring. rewrite <- H.
  - unfold ptR. change (@pt RArith p (T - Kc)%R (from_pair (OS, 2%Z))) with (@pT2s_reg2 RArith p ((T - Kc) + Kc)%R). now replace ((T - Kc) + Kc)%R with T by ring.
  - unfold formula_domain. change (T - Kc + 273.15) with (T - Kc + Kc). replace (T - Kc + Kc) with T by ring. split; [exact Hp|]. split; [lra|]. right. left. split; [reflexivity|lra].
Qed.
Lemma wy8 : wy (107315 / 100) = y8. Proof. unfold wy, y8. field. Qed.
Lemma wy7 : wy (107215 / 100) = y7. Proof. unfold wy, y7. field. Qed.
Lemma wy863 : wy (86315 / 100) = y863. Proof. unfold wy, y863. field. Qed.
Lemma wy623 : wy (62315 / 100) = y623. Proof. unfold wy, y623. field. Qed.
Lemma wy273 : wy (27315 / 100) = y273. Proof. unfold wy, y273. field. Qed.

(* the branches of the code *)
Ltac dd := repeat match goal with |- context[Rle_dec ?a ?b] => destruct (Rle_dec a b) | |- context[Rlt_dec ?a ?b] => destruct (Rlt_dec a b) end; cbn [andb].
Ltac bf := match goal with |- (if ?c then ?a else ?b) = _ => assert (c = false) as ->; [dd; try reflexivity; exfalso; lra|cbv iota] end.
Ltac bt := match goal with |- (if ?c then ?a else ?b) = _ => assert (c = true) as ->; [dd; try reflexivity; exfalso; lra|cbv iota] end.
Ltac br5 B := match goal with |- (if ?c then ?a else ?b) = _ => assert (c = false) as ->; [dd; try reflexivity; exfalso; destruct B; lra|cbv iota] end.
Lemma hs2_logic (c h s : R) : 5.85 < c ->
  5.0491 < s ->
  (5.85 <= s -> @hs_region_h2ab_s RArith s <= h) ->
  (s < 5.85 -> @hs_region_h2c3b_s RArith s <= h) ->
  (s <= c -> 5.260578707 <= s \/ @pT2h_reg2 RArith (1000 / 10)%R (86315 / 100)%R <= h -> h <= @pT2h_reg2 RArith (1000 / 10)%R (@ps2T_reg2 RArith (1000 / 10)%R s - 19 / 1000)%R) ->
  (s < 5.260578707 -> @pT2h_reg2 RArith Ps_623 (62315 / 100)%R <= h) ->
  (s < 5.260578707 -> h < @pT2h_reg2 RArith (1000 / 10)%R (86315 / 100)%R -> @hs2p_reg2c RArith h s <= @B23_T2p RArith (@hs_region_t_hs RArith h s)) ->
  h <= @pT2h_reg2 RArith (@hs2p_reg2 RArith h s) (107315 / 100)%R ->
  (@pT2s_reg2 RArith P_MIN (27315 / 100)%R <= s -> @hs2p_reg2a RArith h s = @hs2p_reg2 RArith h s /\ @pT2h_reg2 RArith P_MIN (27315 / 100)%R <= h) ->
  611212677444 / 1000000000000000 <= @hs2p_reg2 RArith h s <= 1000 / 10 ->
  s <= @pT2s_reg2 RArith P_MIN (107315 / 100)%R ->
  @pT2s_reg2 RArith (1000 / 10)%R (107315 / 100)%R < c ->
  @pT2s_reg1 RArith (1000 / 10)%R (62315 / 100)%R < 4.2 -> @pT2s_reg1 RArith (@Ps_623 RArith) (62315 / 100)%R < 4.2 ->
  h <= @pT2h_reg5 RArith (500 / 10)%R (107315 / 100)%R \/ s <= @pT2s_reg5 RArith (500 / 10)%R (107315 / 100)%R ->
  @hs_sub_region RArith h s = 2%Z.
Proof.
  unfold hs_sub_region.
  set (f1s := @pT2s_reg1 RArith). set (f1h := @pT2h_reg1 RArith). set (f2s := @pT2s_reg2 RArith). set (f2h := @pT2h_reg2 RArith). set (f5s := @pT2s_reg5 RArith). set (f5h := @pT2h_reg5 RArith).
  set (gab := @hs_region_h2ab_s RArith). set (gcb := @hs_region_h2c3b_s RArith). set (gt := @hs_region_t_hs RArith). set (g3a := @hs_region_h3a_s RArith). set (g1 := @hs_region_h1_s RArith). set (g13 := @hs_region_h13_s RArith).
  set (ps2 := @ps2T_reg2 RArith). set (ps1 := @ps2T_reg1 RArith). set (ps3 := @ps2T_reg3 RArith). set (pv3 := @ps2v_reg3 RArith). set (th3 := @Td2h_reg3 RArith).
  set (q2 := @hs2p_reg2 RArith). set (q2c := @hs2p_reg2c RArith). set (q2a := @hs2p_reg2a RArith). set (q5 := @hs2p_reg5 RArith). set (ph5 := @ph2T_reg5 RArith). set (b23 := @B23_T2p RArith).
  unfold SC_WATER.
  set (ps6 := @Ps_623 RArith). set (pm := @P_MIN RArith).
  assert (Epm : pm = 611212677444 / 1000000000000000) by (unfold pm, P_MIN; rnum; reflexivity).
  clearbody f1s f1h f2s f2h f5s f5h gab gcb gt g3a g1 g13 ps2 ps1 ps3 pv3 th3 q2 q2c q2a q5 ph5 b23 ps6 pm.
  intros A0 A1 A2 A3 A4 A5 A6 A7 A8 A9 B1 B2 B3 B4 B5.
  rnum. unfold Rlt_b, Rle_b.
  br5 B5. bf. bf. bf. bf.
  destruct (Rlt_dec s 5.260578707) as [L1|L1].
  - bt. specialize (A3 ltac:(lra)). specialize (A5 L1). bf. bf.
    destruct (Rlt_dec h (f2h (1000 / 10) (86315 / 100))) as [L2|L2].
    + bt. specialize (A6 L1 L2). bt. reflexivity.
    + bf. specialize (A4 ltac:(lra) ltac:(lra)). bt. reflexivity.
  - bf. destruct (Rlt_dec s 5.85) as [L2|L2].
    + bt. specialize (A3 L2). specialize (A4 ltac:(lra) ltac:(lra)). bf. bt. reflexivity.
    + bf. specialize (A2 ltac:(lra)).
      destruct (Rlt_dec s (f2s (1000 / 10) (107315 / 100))) as [L3|L3].
      * bt. specialize (A4 ltac:(lra) ltac:(lra)). bf. bt. reflexivity.
      * bf. destruct (Rlt_dec s (f2s (40 / 10) (107315 / 100))) as [L4|L4].
        -- bt. bf. bt. reflexivity.
        -- bf. destruct (Rlt_dec s (f2s pm (27315 / 100))) as [L5|L5].
           ++ bt. bf. bt. reflexivity.
           ++ bf. bt. destruct (A8 ltac:(lra)) as [C1 C2]. rewrite C1. bt. reflexivity.
Qed.

Section Map.
Variables p t : R.
Hypothesis D : dry p t.
Let V := dry_vap p t D.
Let W : wide2 p (t + Kc) := vap_wide _ _ V.
Let h := ptR 2 OH p t. Let s := ptR 2 OS p t.
Let Lp : if97_psat 273.15 <= p. Proof. pose proof psat_273. pose proof (proj1 D). lra. Qed.
Let Ut : t + Kc <= 1073.15. Proof. pose proof (proj1 (proj2 D)). unfold Kc. lra. Qed.
Let Up : p <= 99.8. Proof. exact (proj2 (proj1 D)). Qed.
Let Pp : 0 < p. Proof. pose proof psat_273. lra. Qed.
Let back := hs_back2 p t W (al0_min _ Lp).
Let p' : R := @hs2p_reg2 RArith h s.
Let pr : 0.999875 * p <= p' <= 1.000125 * p.
Proof.
  pose proof back as Bk. fold h s p' in Bk. apply Rcomplements.Rabs_le_between in Bk. 
  assert (E : p' = p' / p * p) by (field; lra). rewrite E at 1 2. split; apply Rmult_le_compat_r; lra.
Qed.
Lemma m_low : 5.0491 < s.
Proof. destruct (base_of p t D) as (t0 & B & L). pose proof (s_low p t t0 B L Ut) as H. pose proof line_vals. fold s in H. lra. Qed.
Lemma m_hpos : 2100 < h. Proof. exact (h2_big p t W (al0_min _ Lp)). Qed.
Lemma m_ab : 5.85 <= s -> @hs_region_h2ab_s RArith s <= h.
Proof.
  intros L. destruct (base_of p t D) as (t0 & B & L0). unfold hs_region_h2ab_s. cbv zeta. rewrite poly_powi_P. change (@hs_region_h2ab_s_IJn RArith) with (map rrow tab_ab).
  set (f := P (map rrow tab_ab)). rnum. unfold Rlt_b. destruct (Rlt_dec s (585 / 100)) as [A|A]; [lra|]. destruct (Rlt_dec (9155759395 / 1000000000) s) as [C|C]; cbn [orb].
  - pose proof m_hpos. unfold INVALID_S. lra.
  - pose proof line_vals as Vl. pose proof (above_ab p t t0 B L0 Ut L ltac:(fold s; lra)) as H. fold s h in H.
    destruct (cov_ab s ltac:(lra)) as (C1 & C2 & C3). unfold gabr in C3. unfold f.
    replace (10 / 10 / (s / (521 / 100)) - 513 / 1000) with (1 / 1 * / (100 / 521 * s) + -513 / 1000) by (field; lra).
    replace (s / (92 / 10) - 524 / 1000) with (10 / 92 * s + -524 / 1000) by field. set (a := P (map rrow tab_ab) _ _) in *.
    assert (E : exp a < exp (ln (1 / 2800 * Uabr s))) by (apply exp_increasing; lra). rewrite exp_ln in E by lra. lra.
Qed.
Lemma m_cb : s < 5.85 -> @hs_region_h2c3b_s RArith s <= h.
Proof.
  intros L. destruct (base_of p t D) as (t0 & B & L0). unfold hs_region_h2c3b_s, SC_WATER. cbv zeta. rewrite poly_powi_P. change (@hs_region_h2c3b_s_IJn RArith) with (map rrow tab_cb).
  set (f := P (map rrow tab_cb)). pose proof m_low as Lo. rnum. unfold Rlt_b. destruct (Rlt_dec s (441202148223476 / 100000000000000)) as [A|A]; [lra|]. destruct (Rlt_dec (585 / 100) s) as [C|C]; [lra|]. cbn [orb].
  pose proof line_vals as Vl. pose proof (above_cb p t t0 B L0 Ut L) as H. fold s h in H. pose proof (s_low p t t0 B L0 Ut) as Sl. fold s in Sl.
  pose proof (cov_cb s ltac:(lra)) as C3. unfold gcbr, rcbr in C3. unfold f.
  replace (s / (59 / 10) - 102 / 100) with (10 / 59 * s + -102 / 100) by field. replace (s / (59 / 10) - 726 / 1000) with (10 / 59 * s + -726 / 1000) by field.
  set (a := P (map rrow tab_cb) _ _) in *. change (powerRZ a 4) with (a ^ 4). replace (a ^ 4) with (a * a * (a * a)) by ring. lra.
Qed.

Let high : s <= val f604 -> 3.6 <= p.
Proof. destruct (base_of p t D) as (u & B & L0). exact (p_high p t u B L0 Ut). Qed.
Let FMt : 3.6 <= p -> (s <= val f604 -> val f526l <= s \/ val f2812l <= h -> val f509 < s /\ h < Ltopr s) /\
  (s <= val f526h -> h <= val f2812h -> 0 < sabr h s /\ Taur h s < t + Kc).
Proof. intros L. destruct (base_of p t D) as (u & B & L0). exact (FM_at p t u B Ut Up t (conj L0 (Rle_refl t)) L). Qed.
Lemma top_of : s <= val f604 -> 5.260578707 <= s \/ val f2812l <= h -> h <= @pT2h_reg2 RArith (1000 / 10)%R (@ps2T_reg2 RArith (1000 / 10)%R s - 19 / 1000)%R.
Proof.
  intros L H. pose proof (high L) as Hi. destruct (FMt Hi) as [F _]. fold s h in F. pose proof line_vals as Vl.
  destruct (F L ltac:(lra)) as [F1 F2]. replace (1000 / 10) with 100 by lra.
  assert (K : forall T, 0 < gtopr T s -> 0 < ytop T -> h <= @pT2h_reg2 RArith 100%R (T - 19 / 1000)%R).
  { intros T G1 G2. unfold ytop in G2. assert (Q : T - 19 / 1000 <> 0) by (intros Q; replace (1 / 1 * T + -19 / 1000) with (T - 19 / 1000) in G2 by lra; rewrite Q, Rinv_0 in G2; lra).
    assert (Q1 : 0 < T - 19 / 1000 < 1080).
    { replace (1 / 1 * T + -19 / 1000) with (T - 19 / 1000) in G2 by lra. set (z := T - 19 / 1000) in *. assert (I : / 1080 < / z) by lra.
      assert (0 < z) by (rewrite <- (Rinv_involutive z) by exact Q; apply Rinv_0_lt_compat; lra).
      split; [assumption|]. apply Rnot_le_lt. intros N. apply Rinv_le_contravar in N; lra. }
    rewrite h2_of by lra. unfold gtopr, ytop in G1. unfold hv.
    replace (wy (T - 19 / 1000)) with (540 / 1 * / (1 / 1 * T + -19 / 1000) + -5 / 10); [lra|]. unfold wy. replace (1 / 1 * T + -19 / 1000) with (T - 19 / 1000) by lra. unfold Rdiv at 4. lra. }
  set (f2 := @pT2h_reg2 RArith) in *. unfold ps2T_reg2. cbv zeta.
  assert (Eb : @ps2T_reg2b RArith 100%R s = topb s).
  { unfold ps2T_reg2b, topb. cbv zeta. rewrite s_P by vis. change (@ps2T_reg2b_IJn RArith) with (map rrow tpsb). set (f := P (map rrow tpsb)). rnum.
    replace (100 / 10 - s / (7853 / 10000)) with (-10000 / 7853 * s + 10 / 1) by field. replace (100 / (10 / 10)) with 100 by field. lra. }
  assert (Ec : @ps2T_reg2c RArith 100%R s = topc s).
  { unfold ps2T_reg2c, topc. cbv zeta. rewrite poly_powi_P. change (@ps2T_reg2c_IJn RArith) with (map rrow tpsc). set (f := P (map rrow tpsc)). rnum.
    replace (20 / 10 - s / (29251 / 10000)) with (-10000 / 29251 * s + 2 / 1) by field. replace (100 / (10 / 10)) with 100 by field. lra. }
  set (fb := @ps2T_reg2b RArith) in *. set (fc := @ps2T_reg2c RArith) in *. set (fa := @ps2T_reg2a RArith). rnum. unfold Rlt_b.
  destruct (Rlt_dec (40 / 10) 100) as [X|X]; [|lra]. destruct (Rlt_dec s (585 / 100)) as [Y|Y].
  - rewrite Ec. destruct (cov_tc s ltac:(lra)). apply K; assumption.
  - rewrite Eb. destruct (cov_tb s ltac:(lra)). apply K; assumption.
Qed.
(* the boundary with region 3 *)
Lemma m_23min : s < 5.260578707 -> @pT2h_reg2 RArith Ps_623 (62315 / 100)%R <= h.
Proof.
  intros L. unfold Ps_623. rnum. rewrite h2_of by lra. rewrite wy623. pose proof n_23min as N. destruct (base_of p t D) as (u & B & L0). pose proof line_vals as Vl.
  pose proof (h_iso p u t (proj1 B) L0 Ut) as Hi. pose proof (s_iso p u t (proj1 B) L0 Ut) as Si. fold h s in Hi, Si.
  assert (K : val f2563 < val f2812h) by (unfold f2563, f2812h; flv; lra).
  destruct (Rle_dec (ptR 2 OH p u) (val f2812h)) as [Y|Y]; [|lra]. assert (X : ptR 2 OS p u <= val f526h) by lra. destruct (base_th p u B X Y) as [Z _]. lra.
Qed.
Lemma m_23max : val f2812l < @pT2h_reg2 RArith (1000 / 10)%R (86315 / 100)%R < val f2812h.
Proof. rewrite h2_of by lra. rewrite wy863. replace (1000 / 10) with 100 by lra. exact n_23max. Qed.
Lemma m_23 : s < 5.260578707 -> h <= val f2812h -> @hs2p_reg2c RArith h s <= @B23_T2p RArith (@hs_region_t_hs RArith h s).
Proof.
  intros L H. pose proof line_vals as Vl. pose proof (high ltac:(lra)) as Hi. destruct (base_of p t D) as (u & B & L0).
  assert (X : s <= val f526h) by lra. pose proof (th_above p t u B L0 Ut Up X H Hi) as A. fold h s in A.
  destruct (proj2 (FMt Hi) X H) as [Sa _]. fold h s in Sa. rewrite b23_real.
  assert (Ep : @hs2p_reg2c RArith h s = p').
  { unfold p', hs2p_reg2. cbv zeta. set (f := @hs2p_reg2c RArith). assert (Es : @s2h_reg2_ab RArith s = h - sabr h s).
    { unfold s2h_reg2_ab, sabr. cbv zeta. cbn [nth]. rnum. field. }
    rewrite Es. rnum. unfold Rlt_b, Rle_b. destruct (Rlt_dec (h - sabr h s) h) as [Y|Y]; [|lra]. destruct (Rle_dec (585 / 100) s) as [Z|Z]; [lra|reflexivity]. }
  rewrite Ep. apply Rle_trans with (1.000125 * p); [exact (proj2 pr)|]. unfold hs_region_t_hs. cbv zeta. rewrite poly_powi_P. change (@hs_region_t_hs_IJn RArith) with (map rrow tab_th).
  set (f := P (map rrow tab_th)). rnum.
  match goal with |- context[if ?c then _ else _] => destruct c end.
  - unfold if97_b23, INVALID_HS. lra.
  - unfold ths in A. fold f in A. 
    replace (h / (30000 / 10) - 727 / 1000) with (1 / 3000 * h + -727 / 1000) by field. replace (s / (53 / 10) - 864 / 1000) with (10 / 53 * s + -864 / 1000) by field.
    replace (9000 / 10) with (900 / 1) by lra. exact A.
Qed.
(* the isotherm of 800 C *)
Lemma w8 x : 0 < x <= 100 -> wide2 x 1073.15. Proof. intros H. split; [lra|]. split; [lra|]. split; intros; lra. Qed.
Let t8 : R := 1073.15 - Kc.
Let t8K : t8 + Kc = 1073.15. Proof. unfold t8. ring. Qed.
Let h8 x : @pT2h_reg2 RArith x 1073.15%R = ptR 2 OH x t8. Proof. rewrite <- t8K. reflexivity. Qed.
Let s8 x : @pT2s_reg2 RArith x 1073.15%R = ptR 2 OS x t8. Proof. rewrite <- t8K. reflexivity. Qed.
Lemma h_anti x1 x2 : 0 < x1 -> x1 <= x2 -> x2 <= 100 -> ptR 2 OH x2 t8 <= ptR 2 OH x1 t8.
Proof. intros A B C. destruct B as [B| ->]; [|lra]. left. apply h_decr2; [exact A|exact B|]. rewrite t8K. apply w8. lra. Qed.
Lemma s_anti x1 x2 : 0 < x1 -> x1 <= x2 -> x2 <= 100 -> ptR 2 OS x2 t8 <= ptR 2 OS x1 t8.
Proof. intros A B C. destruct B as [B| ->]; [|lra]. left. apply s_decr2; [exact A|exact B|]. rewrite t8K. apply w8. lra. Qed.
Lemma m_800 : h <= @pT2h_reg2 RArith p' (107315 / 100)%R.
Proof.
  replace (107315 / 100) with 1073.15 by lra. rewrite h8. pose proof pr as Pr.
  apply Rle_trans with (ptR 2 OH (1000126 / 1000000 * p) t8); [|apply h_anti; lra].
  set (t7 := 1072.15 - Kc). assert (K7 : t7 + Kc = 1072.15) by (unfold t7; ring). pose proof (proj1 (proj2 D)) as T7.
  apply Rle_trans with (ptR 2 OH p t7); [apply h_iso; [exact W|unfold t7, Kc; lra|rewrite K7; lra]|].
  assert (W7 : wide2 p (t7 + Kc)) by (rewrite K7; split; [lra|]; split; [lra|]; split; intros; lra).
  assert (W8 : wide2 (1000126 / 1000000 * p) (t8 + Kc)) by (rewrite t8K; apply w8; lra).
  rewrite (h_f2 p t7 W7), (h_f2 _ t8 W8), K7, t8K.
  pose proof (cov_E _ (q_box p t W (al0_min _ Lp))) as C. rewrite (q4p p t W) in C. rewrite <- wy7, <- wy8 in C.
  replace (107215 / 100) with 1072.15 in C by lra. replace (107315 / 100) with 1073.15 in C by lra. left. exact C.
Qed.
(* the coldest states *)
Lemma m_4v : @pT2s_reg2 RArith P_MIN (27315 / 100)%R <= s -> 9.1 < s /\ @pT2h_reg2 RArith P_MIN (27315 / 100)%R <= h.
Proof.
  unfold P_MIN. rnum. intros H. rewrite s2_of in H by lra. rewrite h2_of by lra. rewrite wy273 in *. fold pmin in *. destruct n_4v as [N1 N2].
  destruct (base_of p t D) as (u & B & L0). pose proof (above_4v p t u B L0 Ut) as A. fold h s in A. split; lra.
Qed.
Let Lm : pmin <= 0.999875 * p /\ 0 < pmin. Proof. pose proof psat_273 as Q. pose proof (proj1 (proj1 D)) as L. unfold pmin. lra. Qed.
Lemma m_a : 9.1 < s -> @hs2p_reg2a RArith h s = p'.
Proof.
  intros L. unfold p', hs2p_reg2. cbv zeta. set (fa := @hs2p_reg2a RArith). set (fb := @hs2p_reg2b RArith). set (fc := @hs2p_reg2c RArith).
  assert (H : h < 4200).
  { apply Rle_lt_trans with (ptR 2 OH p t8); [apply h_iso; [exact W| |rewrite t8K; lra]; unfold t8; pose proof Ut; lra|].
    destruct Lm as [L1 L2]. apply Rle_lt_trans with (ptR 2 OH pmin t8); [apply h_anti; lra|].
    assert (Wm : wide2 pmin (t8 + Kc)) by (rewrite t8K; apply w8; lra). rewrite (h_f2 _ _ Wm), t8K. replace 1073.15 with (107315 / 100) by lra. rewrite wy8. exact n_hmax. }
  assert (E : 4200 < @s2h_reg2_ab RArith s).
  { unfold s2h_reg2_ab. cbv zeta. cbn [nth]. rnum. replace (s / (10 / 10)) with s by field. set (u := s - 9.1). replace s with (9.1 + u) by (unfold u; ring). assert (U : 0 < u) by (unfold u; lra).
    assert (0 < u * u) by (apply Rmult_lt_0_compat; exact U). assert (0 < u * u * u) by (apply Rmult_lt_0_compat; assumption). lra. }
  set (e := @s2h_reg2_ab RArith s) in *. rnum. unfold Rlt_b. destruct (Rlt_dec e h) as [Y|Y]; [lra|reflexivity].
Qed.
Lemma m_p : 611212677444 / 1000000000000000 <= p' <= 1000 / 10.
Proof. destruct Lm as [L1 L2]. unfold pmin in *. pose proof pr. lra. Qed.
Lemma m_smax : s <= @pT2s_reg2 RArith P_MIN (107315 / 100)%R.
Proof.
  replace (107315 / 100) with 1073.15 by lra. rewrite s8. unfold P_MIN. rnum. fold pmin. destruct Lm as [L1 L2].
  apply Rle_trans with (ptR 2 OS p t8); [apply s_iso; [exact W| |rewrite t8K; lra]; unfold t8; pose proof Ut; lra|]. apply s_anti; lra.
Qed.
Lemma m_tp : @pT2s_reg2 RArith (1000 / 10)%R (107315 / 100)%R < val f604.
Proof. rewrite s2_of by lra. rewrite wy8. replace (1000 / 10) with 100 by lra. exact n_tp. Qed.
Lemma m_13 : @pT2s_reg1 RArith (1000 / 10)%R (62315 / 100)%R < 4.2.
Proof. apply s1_lt. replace (62315 / 100) with 623.15 by lra. apply low_wide. lra. Qed.
Lemma m_13s : @pT2s_reg1 RArith (@Ps_623 RArith) (62315 / 100)%R < 4.2.
Proof. apply s1_lt. replace (62315 / 100) with 623.15 by lra. unfold Ps_623. rnum. pose proof psat_623. split; lra. Qed.
Hypothesis No5 : h <= ptR 5 OH 50 800 \/ s <= ptR 5 OS 50 800.
Let no5 : h <= @pT2h_reg5 RArith (500 / 10)%R (107315 / 100)%R \/ s <= @pT2s_reg5 RArith (500 / 10)%R (107315 / 100)%R.
Proof.
  replace (500 / 10) with 50 by lra. replace (107315 / 100) with (800 + Kc) by (unfold Kc; lra). exact No5.
Qed.
Lemma map_hs2 : @hs_sub_region RArith h s = 2%Z.
Proof.
  pose proof line_vals as Vl. pose proof m_23max as A7. pose proof m_tp as B5.
  apply (hs2_logic (val f604)); [lra|exact m_low|exact m_ab|exact m_cb| |exact m_23min| |exact m_800| |exact m_p|exact m_smax|exact m_tp|exact m_13|exact m_13s|exact no5].
  - intros L H. apply top_of; [exact L|]. lra.
  - intros L H. apply m_23; [exact L|]. lra.
  - intros H. destruct (m_4v H) as [N1 N2]. split; [exact (m_a N1)|exact N2].
Qed.
End Map.

(* ---- below the states of region 5 ---- *)
Lemma gas8 : hot_gas 50 800. Proof. unfold hot_gas. lra. Qed.
Lemma h698 : ptR 2 OH pmin 698 < ptR 5 OH 50 800.
Proof.
  assert (V : vapour pmin 698) by (unfold vapour, pmin; repeat split; lra).
  rewrite (a_h _ _ _ (facts2 _ _ (wide2_dom _ _ _ (vap_wide _ _ V) eq_refl))), (a_h _ _ _ (pt_facts _ _ _ (dom5_gas _ _ gas8))). unfold f_h, pmin. tab. interval with (i_prec 60).
Qed.
Lemma s799 : ptR 2 OS 50 799 < ptR 5 OS 50 800.
Proof.
  assert (V : vapour 50 799) by (unfold vapour; repeat split; lra).
  rewrite (a_s _ _ _ (facts2 _ _ (wide2_dom _ _ _ (vap_wide _ _ V) eq_refl))), (a_s _ _ _ (pt_facts _ _ _ (dom5_gas _ _ gas8))). unfold f_s. tab. interval with (i_prec 60).
Qed.
Lemma below5 p t : dry p t -> t <= 698 \/ 50 <= p -> ptR 2 OH p t <= ptR 5 OH 50 800 \/ ptR 2 OS p t <= ptR 5 OS 50 800.
Proof.
  intros D [H|H]; pose proof (vap_wide _ _ (dry_vap p t D)) as W; pose proof (proj1 (proj2 D)) as T; pose proof (proj1 D) as Q; pose proof psat_273 as Q0.
  - left. apply Rle_trans with (ptR 2 OH p 698); [apply h_iso; [exact W|exact H|unfold Kc; lra]|]. left. apply Rle_lt_trans with (ptR 2 OH pmin 698); [|exact h698].
    assert (E : pmin < p) by (unfold pmin; lra). left. apply h_decr2; [unfold pmin; lra|exact E|]. apply (wide2_iso _ _ _ W). unfold Kc. lra.
  - right. apply Rle_trans with (ptR 2 OS p 799); [apply s_iso; [exact W|lra|unfold Kc; lra]|]. left. apply Rle_lt_trans with (ptR 2 OS 50 799); [|exact s799].
    destruct H as [H|<-]; [|lra]. left. apply s_decr2; [lra|exact H|]. apply (wide2_iso _ _ _ W). unfold Kc. lra.
Qed.
Lemma hs_or fuel h s : @hs RArith fuel h s (from_i32 OR) = Some (IZR (@hs_sub_region RArith h s)).
Proof. reflexivity. Qed.
Lemma hs_map2 fuel p t : dry p t -> t <= 698 \/ 50 <= p -> @hs RArith fuel (ptR 2 OH p t) (ptR 2 OS p t) (from_i32 OR) = Some 2.
Proof. intros D H. rewrite hs_or, (map_hs2 p t D (below5 p t D H)). reflexivity. Qed.
Lemma hs_auto2 fuel p t o : dry p t -> t <= 698 \/ 50 <= p ->
  @hs RArith fuel (ptR 2 OH p t) (ptR 2 OS p t) (from_i32 o) = @hs RArith fuel (ptR 2 OH p t) (ptR 2 OS p t) (from_pair (o, 2%Z)).
Proof.
  intros D H. pose proof (map_hs2 p t D (below5 p t D H)) as M. set (h := ptR 2 OH p t) in *. set (s := ptR 2 OS p t) in *.
  unfold hs, pair_properties_o, from_i32, from_pair, o_id_reg_info. rewrite M. reflexivity.
Qed.
Lemma hs_pauto fuel p t : dry p t -> t <= 698 \/ 50 <= p -> exists q,
  @hs RArith fuel (ptR 2 OH p t) (ptR 2 OS p t) (from_i32 OP) = Some q /\ Rabs (q - p) <= 0.000125 * p.
Proof.
  intros D H. rewrite (hs_auto2 fuel p t OP D H). apply hs_p2; [exact (dry_vap p t D)|]. pose proof psat_273. pose proof (proj1 D). lra.
Qed.
