(* The region maps of ph and ps on an isobar: which enthalpies and entropies they give to
   which region, all of them and no others. *)
From Coq Require Import ZArith Reals List Bool Lra Lia.
From Coq Require Ranalysis5.
From Coquelicot Require Import Coquelicot.
From Verif Require Import RegionMap SatFloat SpecSub3 Num RealInst Constant R4Sat Reg1 Reg2 Boundaries Reg2Back Region Api Spec SpecReal SatInv Sub3 RealSat SatApi RSums Gibbs GibbsModel
  SpecThermo ThermoApi SpecStable SpecSteam SpecMap Stab1 Stab2 Back2.
Open Scope R_scope.

Lemma onto (f df : R -> R) a b v : a <= b -> (forall x, a <= x <= b -> is_derive f x (df x)) -> f a <= v <= f b -> exists x, a <= x <= b /\ f x = v.
Proof.
  intros L D [A B]. destruct (Req_dec (f a) v) as [E|E]; [exists a; split; [lra|exact E]|]. destruct (Req_dec (f b) v) as [E'|E']; [exists b; split; [lra|exact E']|].
  assert (a < b). { destruct L as [L|L]; [exact L|]. subst b. lra. }
  destruct (Ranalysis5.IVT_interv (fun x => f x - v) a b) as [z [Z1 Z2]]; [|lra|lra|lra|].
  - intros x Hx. apply continuity_pt_minus; [|apply continuity_pt_const; intros ? ?; reflexivity].
    apply continuity_pt_filterlim. apply (ex_derive_continuous f). exists (df x). apply D. exact Hx.
  - exists z. split; [exact Z1|lra].
Qed.
Lemma hot_wide p : if97_psat 273.15 <= p <= 100 -> wide1 p (hottest_liquid p) /\ 273.15 <= hottest_liquid p.
Proof.
  intros H. unfold hottest_liquid, p_corner. destruct (Rle_dec _ _) as [L|L].
  - destruct (tsat_wide p ltac:(lra)) as [_ W]. split; [exact W|exact (proj1 (proj1 W))].
  - split; [apply low_wide; lra|lra].
Qed.
Lemma cold_wide p : if97_psat 273.15 <= p <= 100 -> wide2 p (coldest_vapour p).
Proof.
  intros H. unfold coldest_vapour, p_corner. destruct (Rle_dec _ _) as [L|L]; [apply tsat_wide; lra|apply b23T_wide; lra].
Qed.

(* onto on the isobars; f is enthalpy or entropy *)
Section On.
Variables (o : Z) (df : Z -> R -> R -> R).
Hypothesis D : forall r p t, formula_domain r p t -> is_derive (fun t => ptR r o p t) t (df r p t).
Hypothesis M1 : forall p t1 t2, 273.15 <= t1 + Kc -> t1 < t2 -> wide1 p (t2 + Kc) -> ptR 1 o p t1 < ptR 1 o p t2.
Hypothesis M2 : forall p t1 t2, wide2 p (t1 + Kc) -> t1 < t2 -> t2 + Kc <= 1073.15 -> ptR 2 o p t1 < ptR 2 o p t2.
Lemma on1 p v : if97_psat 273.15 <= p <= 100 ->
  (ptR 1 o p 0 <= v <= ptR 1 o p (hottest_liquid p - Kc) <-> exists t, 0 <= t /\ t + 273.15 <= hottest_liquid p /\ v = ptR 1 o p t).
Proof.
  intros H. destruct (hot_wide p H) as [W L]. change 273.15 with Kc. split.
  - intros A. destruct (onto (fun t => ptR 1 o p t) (df 1 p) 0 (hottest_liquid p - Kc) v) as [t [T1 T2]]; [unfold Kc; lra| |exact A|].
    + intros t Ht. apply D. apply (wide_dom p (t + Kc)); [|reflexivity]. apply (wide_iso p _ _ W). unfold Kc in *. lra.
    + exists t. split; [lra|]. split; [lra|auto].
  - intros (t & A & B & ->). replace (hottest_liquid p) with (hottest_liquid p - Kc + Kc) in W by ring. split.
    + destruct A as [A|<-]; [|lra]. left. apply M1; [unfold Kc; lra|exact A|]. apply (wide_iso p _ _ W). unfold Kc in *. lra.
    + destruct (Req_dec t (hottest_liquid p - Kc)) as [->|N]; [lra|]. left. apply M1; [unfold Kc; lra|lra|exact W].
Qed.
Lemma on2 p v : if97_psat 273.15 <= p <= 100 ->
  (ptR 2 o p (coldest_vapour p - Kc) <= v <= ptR 2 o p 800 <-> exists t, coldest_vapour p <= t + 273.15 /\ t <= 800 /\ v = ptR 2 o p t).
Proof.
  intros H. pose proof (cold_wide p H) as W. pose proof (proj1 (proj2 W)) as L. change 273.15 with Kc. split.
  - intros A. destruct (onto (fun t => ptR 2 o p t) (df 2 p) (coldest_vapour p - Kc) 800 v) as [t [T1 T2]]; [unfold Kc; lra| |exact A|].
    + intros t Ht. apply D. apply (wide2_dom p (t + Kc)); [|reflexivity]. apply (wide2_iso p _ _ W). unfold Kc in *. lra.
    + exists t. split; [lra|]. split; [lra|auto].
  - intros (t & A & B & ->). replace (coldest_vapour p) with (coldest_vapour p - Kc + Kc) in W by ring. split.
    + destruct (Req_dec t (coldest_vapour p - Kc)) as [->|N]; [lra|]. left. apply M2; [exact W|lra|unfold Kc; lra].
    + destruct B as [B| ->]; [|lra]. left. apply M2; [|exact B|unfold Kc; lra]. apply (wide2_iso p _ _ W). unfold Kc in *. lra.
Qed.
End On.

(* what the code computes, with the limits named *)
Definition isobar (p v a b c d e : R) (wet : Prop) (W : {wet} + {~ wet}) : Z :=
  if Rle_dec a v then if Rle_dec v b then 1%Z else if Rlt_dec v c then (if Rle_dec p p_corner then 4%Z else if W then 4%Z else 3%Z)
    else if Rle_dec v d then 2%Z else if Rle_dec p 50 then if Rle_dec v e then 5%Z else INVALID_VALUE else INVALID_VALUE
  else INVALID_VALUE.
Lemma Rlt_bd x y : Rlt_b x y = if Rlt_dec x y then true else false. Proof. reflexivity. Qed.
Definition wet_h p h := p < 22.064 /\ p < @h2p_sat_reg3 RArith h.
Definition wet_s p s := p < 22.064 /\ p < @s2p_sat_reg3 RArith s.
Lemma wet_h_dec p h : {wet_h p h} + {~ wet_h p h}.
Proof. unfold wet_h. destruct (Rlt_dec p 22.064), (Rlt_dec p (@h2p_sat_reg3 RArith h)); tauto. Qed.
Lemma wet_s_dec p h : {wet_s p h} + {~ wet_s p h}.
Proof. unfold wet_s. destruct (Rlt_dec p 22.064), (Rlt_dec p (@s2p_sat_reg3 RArith h)); tauto. Qed.
Ltac cases := repeat (match goal with
  | |- context [if Rle_dec ?a ?b then _ else _] => destruct (Rle_dec a b)
  | |- context [if Rlt_dec ?a ?b then _ else _] => destruct (Rlt_dec a b) end; cbn [andb]; try (exfalso; lra)); try reflexivity.
Section Iso.
Variable p : R.
Hypothesis H : if97_psat 273.15 <= p <= 100.
Let P0 := psat_273.
Lemma ph_isobar h : @ph_sub_region RArith p h =
  isobar p h (ptR 1 OH p 0) (ptR 1 OH p (hottest_liquid p - Kc)) (ptR 2 OH p (coldest_vapour p - Kc)) (ptR 2 OH p 800) (ptR 5 OH p 2000) _ (wet_h_dec p h).
Proof.
  destruct (hot_wide p H) as [W1 L1]. pose proof (cold_wide p H) as W2. 
  pose proof (h1_lt p _ W1) as K1. pose proof (fun E => h2_big p (coldest_vapour p - Kc) E (al0_min _ (proj1 H))) as K2.
  assert (O1 : ptR 1 OH p 0 <= ptR 1 OH p (hottest_liquid p - Kc)).
  { destruct (Req_dec (hottest_liquid p - Kc) 0) as [->|N]; [lra|]. left. apply h_incr1; [unfold Kc; lra|unfold Kc in *; lra|]. replace (hottest_liquid p - Kc + Kc) with (hottest_liquid p) by ring. exact W1. }
  replace (coldest_vapour p - Kc + Kc) with (coldest_vapour p) in K2 by ring. specialize (K2 W2).
  assert (O2 : ptR 2 OH p (coldest_vapour p - Kc) <= ptR 2 OH p 800).
  { pose proof (proj1 (proj2 W2)). destruct (Req_dec (coldest_vapour p - Kc) 800) as [->|N]; [lra|]. left. apply h_incr2; [|unfold Kc in *; lra|unfold Kc; lra]. replace (coldest_vapour p - Kc + Kc) with (coldest_vapour p) by ring. exact W2. }
  change (ptR 1 OH p 0) with (@pT2h_reg1 RArith p (0 + Kc)%R) in *. change (ptR 2 OH p 800) with (@pT2h_reg2 RArith p (800 + Kc)%R) in *. change (ptR 5 OH p 2000) with (@Reg5.pT2h_reg5 RArith p (2000 + Kc)%R) in *.
  change (ptR 1 OH p (hottest_liquid p - Kc)) with (@pT2h_reg1 RArith p (hottest_liquid p - Kc + Kc)%R) in *.
  change (ptR 2 OH p (coldest_vapour p - Kc)) with (@pT2h_reg2 RArith p (coldest_vapour p - Kc + Kc)%R) in *.
  replace (hottest_liquid p - Kc + Kc) with (hottest_liquid p) in * by ring. replace (coldest_vapour p - Kc + Kc) with (coldest_vapour p) in * by ring.
  replace (0 + Kc) with (27315 / 100) in * by (unfold Kc; lra). replace (800 + Kc) with (107315 / 100) in * by (unfold Kc; lra). replace (2000 + Kc) with (227315 / 100) in * by (unfold Kc; lra).
  unfold isobar, ph_sub_region, P_MIN, Ps_623, PC_WATER. cbv zeta. set (f1 := @pT2h_reg1 RArith) in *. set (f2 := @Reg2.pT2h_reg2 RArith) in *. set (f5 := @Reg5.pT2h_reg5 RArith).
  set (f3 := @h2p_sat_reg3 RArith) in *. set (ts := @T_saturation RArith). set (bt3 := @B23_p2T RArith).
  assert (Ets : p <= 16.5291642526045 -> ts p = if97_tsat p) by (intros; unfold ts; apply tsat_real; lra).
  assert (Ebt : 16.5291642526045 < p -> bt3 p = if97_b23T p) by (intros; unfold bt3; apply b23T_code; lra).
  generalize (wet_h_dec p h). unfold wet_h. fold f3. intros We. clearbody f1 f2 f3 f5 ts bt3. clear W1 W2 L1. revert K1 K2 O1 O2. unfold hottest_liquid, coldest_vapour, p_corner. rnum.
  unfold Rle_b, Rlt_b. destruct (Rle_dec p 16.5291642526045) as [Lp|Lp]; intros K1 K2 O1 O2.
  - specialize (Ets Lp). rewrite Ets. clear Ets Ebt. clear We. set (tt' := if97_tsat p) in *. cases.
  - specialize (Ebt ltac:(lra)). rewrite Ebt. clear Ets Ebt. replace 623.15 with (62315 / 100) in * by lra. set (b := if97_b23T p) in *.
    destruct We as [[We1 We2]|We]; cases; exfalso; apply We; split; lra.
Qed.
Lemma ps_isobar h : @ps_sub_region RArith p h =
  isobar p h (ptR 1 OS p 0) (ptR 1 OS p (hottest_liquid p - Kc)) (ptR 2 OS p (coldest_vapour p - Kc)) (ptR 2 OS p 800) (ptR 5 OS p 2000) _ (wet_s_dec p h).
Proof.
  destruct (hot_wide p H) as [W1 L1]. pose proof (cold_wide p H) as W2. 
  pose proof (s1_lt p _ W1) as K1. pose proof (fun E => s2_big p (coldest_vapour p - Kc) E (al0_min _ (proj1 H))) as K2.
  assert (O1 : ptR 1 OS p 0 <= ptR 1 OS p (hottest_liquid p - Kc)).
  { destruct (Req_dec (hottest_liquid p - Kc) 0) as [->|N]; [lra|]. left. apply s_incr1; [unfold Kc; lra|unfold Kc in *; lra|]. replace (hottest_liquid p - Kc + Kc) with (hottest_liquid p) by ring. exact W1. }
  replace (coldest_vapour p - Kc + Kc) with (coldest_vapour p) in K2 by ring. specialize (K2 W2).
  assert (O2 : ptR 2 OS p (coldest_vapour p - Kc) <= ptR 2 OS p 800).
  { pose proof (proj1 (proj2 W2)). destruct (Req_dec (coldest_vapour p - Kc) 800) as [->|N]; [lra|]. left. apply s_incr2; [|unfold Kc in *; lra|unfold Kc; lra]. replace (coldest_vapour p - Kc + Kc) with (coldest_vapour p) by ring. exact W2. }
  change (ptR 1 OS p 0) with (@pT2s_reg1 RArith p (0 + Kc)%R) in *. change (ptR 2 OS p 800) with (@pT2s_reg2 RArith p (800 + Kc)%R) in *. change (ptR 5 OS p 2000) with (@Reg5.pT2s_reg5 RArith p (2000 + Kc)%R) in *.
  change (ptR 1 OS p (hottest_liquid p - Kc)) with (@pT2s_reg1 RArith p (hottest_liquid p - Kc + Kc)%R) in *.
  change (ptR 2 OS p (coldest_vapour p - Kc)) with (@pT2s_reg2 RArith p (coldest_vapour p - Kc + Kc)%R) in *.
  replace (hottest_liquid p - Kc + Kc) with (hottest_liquid p) in * by ring. replace (coldest_vapour p - Kc + Kc) with (coldest_vapour p) in * by ring.
  replace (0 + Kc) with (27315 / 100) in * by (unfold Kc; lra). replace (800 + Kc) with (107315 / 100) in * by (unfold Kc; lra). replace (2000 + Kc) with (227315 / 100) in * by (unfold Kc; lra).
  unfold isobar, ps_sub_region, P_MIN, Ps_623, PC_WATER. cbv zeta. set (f1 := @pT2s_reg1 RArith) in *. set (f2 := @Reg2.pT2s_reg2 RArith) in *. set (f5 := @Reg5.pT2s_reg5 RArith).
  set (f3 := @s2p_sat_reg3 RArith) in *. set (ts := @T_saturation RArith). set (bt3 := @B23_p2T RArith).
  assert (Ets : p <= 16.5291642526045 -> ts p = if97_tsat p) by (intros; unfold ts; apply tsat_real; lra).
  assert (Ebt : 16.5291642526045 < p -> bt3 p = if97_b23T p) by (intros; unfold bt3; apply b23T_code; lra).
  generalize (wet_s_dec p h). unfold wet_s. fold f3. intros We. clearbody f1 f2 f3 f5 ts bt3. clear W1 W2 L1. revert K1 K2 O1 O2. unfold hottest_liquid, coldest_vapour, p_corner. rnum.
  unfold Rle_b, Rlt_b. destruct (Rle_dec p 16.5291642526045) as [Lp|Lp]; intros K1 K2 O1 O2.
  - specialize (Ets Lp). rewrite Ets. clear Ets Ebt. clear We. set (tt' := if97_tsat p) in *. cases.
  - specialize (Ebt ltac:(lra)). rewrite Ebt. clear Ets Ebt. replace 623.15 with (62315 / 100) in * by lra. set (b := if97_b23T p) in *.
    destruct We as [[We1 We2]|We]; cases; exfalso; apply We; split; lra.
Qed.
End Iso.

Lemma isobar_all p v a b c d e wet W : a <= b -> b < c -> c <= d ->
  (IZR (isobar p v a b c d e wet W) = 1 <-> a <= v <= b) /\
  (IZR (isobar p v a b c d e wet W) = 2 <-> c <= v <= d) /\
  (IZR (isobar p v a b c d e wet W) = 3 <-> p_corner < p /\ b < v < c /\ ~ wet) /\
  (IZR (isobar p v a b c d e wet W) = 4 <-> b < v < c /\ (p <= p_corner \/ wet)) /\
  (IZR (isobar p v a b c d e wet W) = 5 <-> p <= 50 /\ d < v <= e) /\
  (IZR (isobar p v a b c d e wet W) = IZR INVALID_VALUE <-> v < a \/ (d < v /\ (50 < p \/ e < v))).
Proof.
  intros A B C. unfold isobar.
  assert (N : forall x y : Z, x <> y -> IZR x <> IZR y) by (intros x y E F; apply E, eq_IZR, F).
  repeat match goal with
  | |- context [if Rle_dec ?x ?y then _ else _] => destruct (Rle_dec x y)
  | |- context [if Rlt_dec ?x ?y then _ else _] => destruct (Rlt_dec x y)
  | |- context [if W then _ else _] => destruct W end; 
  change INVALID_VALUE with (-9999)%Z; repeat split; intros; try lra; intuition lra.
Qed.
Lemma phR_or p h : phR OR p h = IZR (@ph_sub_region RArith p h). Proof. reflexivity. Qed.
Lemma psR_or p h : psR OR p h = IZR (@ps_sub_region RArith p h). Proof. reflexivity. Qed.
Section Iso2.
Variable p : R.
Hypothesis H : if97_psat 273.15 <= p <= 100.
Lemma iso_order :
  (ptR 1 OH p 0 <= ptR 1 OH p (hottest_liquid p - Kc) /\ ptR 1 OH p (hottest_liquid p - Kc) < ptR 2 OH p (coldest_vapour p - Kc) /\ ptR 2 OH p (coldest_vapour p - Kc) <= ptR 2 OH p 800) /\
  (ptR 1 OS p 0 <= ptR 1 OS p (hottest_liquid p - Kc) /\ ptR 1 OS p (hottest_liquid p - Kc) < ptR 2 OS p (coldest_vapour p - Kc) /\ ptR 2 OS p (coldest_vapour p - Kc) <= ptR 2 OS p 800).
Proof.
  destruct (hot_wide p H) as [W1 L1]. pose proof (cold_wide p H) as W2. pose proof (proj1 (proj2 W2)) as L2.
  replace (hottest_liquid p) with (hottest_liquid p - Kc + Kc) in W1 by ring. replace (coldest_vapour p) with (coldest_vapour p - Kc + Kc) in W2 by ring.
  pose proof (h1_lt p _ W1) as K1. pose proof (h2_big p _ W2 (al0_min _ (proj1 H))) as K2. pose proof (s1_lt p _ W1) as K3. pose proof (s2_big p _ W2 (al0_min _ (proj1 H))) as K4.
  change (@pT2h_reg1 RArith p (hottest_liquid p - Kc + Kc)%R) with (ptR 1 OH p (hottest_liquid p - Kc)) in K1. change (@pT2s_reg1 RArith p (hottest_liquid p - Kc + Kc)%R) with (ptR 1 OS p (hottest_liquid p - Kc)) in K3.
  split; (split; [|split]); try lra.
  - destruct (Req_dec (hottest_liquid p - Kc) 0) as [->|N]; [lra|]. left. apply h_incr1; [unfold Kc; lra|unfold Kc in *; lra|exact W1].
  - destruct (Req_dec (coldest_vapour p - Kc) 800) as [->|N]; [lra|]. left. apply h_incr2; [exact W2|unfold Kc in *; lra|unfold Kc; lra].
  - destruct (Req_dec (hottest_liquid p - Kc) 0) as [->|N]; [lra|]. left. apply s_incr1; [unfold Kc; lra|unfold Kc in *; lra|exact W1].
  - destruct (Req_dec (coldest_vapour p - Kc) 800) as [->|N]; [lra|]. left. apply s_incr2; [exact W2|unfold Kc in *; lra|unfold Kc; lra].
Qed.
Let ho := proj1 iso_order.
Let so := proj2 iso_order.
Definition ph_all (h : R) := isobar_all p h _ _ _ _ (ptR 5 OH p 2000) _ (wet_h_dec p h) (proj1 ho) (proj1 (proj2 ho)) (proj2 (proj2 ho)).
Definition ps_all (s : R) := isobar_all p s _ _ _ _ (ptR 5 OS p 2000) _ (wet_s_dec p s) (proj1 so) (proj1 (proj2 so)) (proj2 (proj2 so)).
Lemma ph_is1 h : phR OR p h = 1 <-> exists t, 0 <= t /\ t + 273.15 <= hottest_liquid p /\ h = ptR 1 OH p t.
Proof. rewrite phR_or, (ph_isobar p H). rewrite (proj1 (ph_all h)). apply (on1 OH (fun r p t => ptR r OCP p t)); [exact dH_dt|exact h_incr1|exact H]. Qed.
Lemma ps_is1 s : psR OR p s = 1 <-> exists t, 0 <= t /\ t + 273.15 <= hottest_liquid p /\ s = ptR 1 OS p t.
Proof. rewrite psR_or, (ps_isobar p H). rewrite (proj1 (ps_all s)). apply (on1 OS (fun r p t => ptR r OCP p t / (t + Kc))); [exact dS_dt|exact s_incr1|exact H]. Qed.
Lemma ph_is2 h : phR OR p h = 2 <-> exists t, coldest_vapour p <= t + 273.15 /\ t <= 800 /\ h = ptR 2 OH p t.
Proof. rewrite phR_or, (ph_isobar p H). rewrite (proj1 (proj2 (ph_all h))). apply (on2 OH (fun r p t => ptR r OCP p t)); [exact dH_dt|exact h_incr2|exact H]. Qed.
Lemma ps_is2 s : psR OR p s = 2 <-> exists t, coldest_vapour p <= t + 273.15 /\ t <= 800 /\ s = ptR 2 OS p t.
Proof. rewrite psR_or, (ps_isobar p H). rewrite (proj1 (proj2 (ps_all s))). apply (on2 OS (fun r p t => ptR r OCP p t / (t + Kc))); [exact dS_dt|exact s_incr2|exact H]. Qed.
Lemma ph_rest h : 
  let b := ptR 1 OH p (hottest_liquid p - 273.15) in let c := ptR 2 OH p (coldest_vapour p - 273.15) in
  (phR OR p h = 3 <-> p_corner < p /\ b < h < c /\ (22.064 <= p \/ @h2p_sat_reg3 RArith h <= p)) /\
  (phR OR p h = 4 <-> b < h < c /\ (p <= p_corner \/ (p < 22.064 /\ p < @h2p_sat_reg3 RArith h))) /\
  (phR OR p h = 5 <-> p <= 50 /\ ptR 2 OH p 800 < h <= ptR 5 OH p 2000) /\
  (phR OR p h = IZR INVALID_VALUE <-> h < ptR 1 OH p 0 \/ (ptR 2 OH p 800 < h /\ (50 < p \/ ptR 5 OH p 2000 < h))).
Proof.
  change 273.15 with Kc. cbv zeta. rewrite phR_or, (ph_isobar p H). destruct (ph_all h) as (_ & _ & A & B & C & D). split; [|split; [|split; [exact C|exact D]]].
  - rewrite A. unfold wet_h. split; intros (E & F & G); repeat split; try lra. 
  - rewrite B. unfold wet_h. reflexivity.
Qed.
Lemma ps_rest s : 
  let b := ptR 1 OS p (hottest_liquid p - 273.15) in let c := ptR 2 OS p (coldest_vapour p - 273.15) in
  (psR OR p s = 3 <-> p_corner < p /\ b < s < c /\ (22.064 <= p \/ @s2p_sat_reg3 RArith s <= p)) /\
  (psR OR p s = 4 <-> b < s < c /\ (p <= p_corner \/ (p < 22.064 /\ p < @s2p_sat_reg3 RArith s))) /\
  (psR OR p s = 5 <-> p <= 50 /\ ptR 2 OS p 800 < s <= ptR 5 OS p 2000) /\
  (psR OR p s = IZR INVALID_VALUE <-> s < ptR 1 OS p 0 \/ (ptR 2 OS p 800 < s /\ (50 < p \/ ptR 5 OS p 2000 < s))).
Proof.
  change 273.15 with Kc. cbv zeta. rewrite psR_or, (ps_isobar p H). destruct (ps_all s) as (_ & _ & A & B & C & D). split; [|split; [|split; [exact C|exact D]]].
  - rewrite A. unfold wet_s. split; intros (E & F & G); repeat split; try lra. 
  - rewrite B. unfold wet_s. reflexivity.
Qed.
End Iso2.
