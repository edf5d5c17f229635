(* Wet states given by two properties, the region left to the library. *)
From Coq Require Import ZArith Reals List Bool Lra Lia.
From Coquelicot Require Import Coquelicot.
From Interval Require Import Tactic.
From Verif Require Import RegionMap SpecSub3 Num RealInst InstFacts Constant R4Sat Reg1 Reg2 Reg5 Reg3Td Boundaries Reg1Back Reg2Back Reg3V Reg3 Reg4 Region Api Control Spec SpecReal SpecWet SatInv RealSat SatApi Sub3 Lever LeverReal SatBand1 SatBand2 WetGap RSums Gibbs GibbsModel GibbsModel5
  SpecThermo ThermoApi ThermoPts SpecStable SpecSteam SpecGas SpecMap Stab1 Stab2 Stab5 Back2 Map12 TvMap Expand IsoMap SpecIso PvMap ThMap.
Import ListNotations.
Open Scope R_scope.

(* ---- the calls with region 4 given ---- *)
Section Given.
Variables (fuel : positive) (t x : R) (w : Z).
Hypothesis Hw : w <> OR.
Hypothesis Ht : 273.15 <= t + 273.15 <= 647.096.
Hypothesis Hx : 0 <= x <= 1.
Lemma tx_in : w <> OT -> w <> OX -> @Api.tx RArith t x w = @Tx_reg4 RArith (t + 273.15)%R x w.
Proof.
  intros A B. destruct (in_tx_R (t + 273.15) x Ht Hx) as (C1 & C2 & C3 & C4). unfold Api.tx. rewrite (proj2 (Z.eqb_neq w OT) A), (proj2 (Z.eqb_neq w OX) B). cbv zeta.
  change (@add RArith t (@lit RArith (273.15%dec))) with (t + 273.15). rewrite C1, C2, C3, C4. reflexivity.
Qed.
Lemma th_given h : @Th2x_reg4 RArith (t + 273.15)%R h = x -> @Api.tx RArith t x OH = h -> @Api.th RArith fuel t h (from_pair (w, 4%Z)) = Some (@Api.tx RArith t x w).
Proof.
  intros E F. unfold Api.th. change (o_id_reg_info (from_pair (w, 4%Z))) with (w, 4%Z). cbv iota beta. pose proof tx_in as Q.
  destruct (Z.eqb_spec w OT) as [->|n1]; [reflexivity|]. destruct (Z.eqb_spec w OH) as [->|n2]; [rewrite F; reflexivity|].
  unfold pair_properties_o. change (Z.eqb 4 REGION_NONE) with false. cbv iota. destruct (Z.eqb_spec w OR) as [->|n3]; [congruence|].
  destruct (Z.eqb_spec w OX) as [->|n4].
  - cbn -[Th2x_reg4 Api.tx]. unfold tot2, th_reg4. change (@add RArith t (@lit RArith (273.15%dec))) with (t + 273.15). rewrite E. reflexivity.
  - cbn -[Th2x_reg4 Api.tx Tx_reg4]. unfold tot2, th_reg4. change (@add RArith t (@lit RArith (273.15%dec))) with (t + 273.15). rewrite E, (proj2 (Z.eqb_neq w OX) n4), Q by assumption. reflexivity.
Qed.
Lemma tv_given v : @Tv2x_reg4 RArith (t + 273.15)%R v = x -> @Api.tx RArith t x OV = v -> @Api.tv RArith fuel t v (from_pair (w, 4%Z)) = Some (@Api.tx RArith t x w).
Proof.
  intros E F. unfold Api.tv. change (o_id_reg_info (from_pair (w, 4%Z))) with (w, 4%Z). cbv iota beta. pose proof tx_in as Q.
  destruct (Z.eqb_spec w OT) as [->|n1]; [reflexivity|]. destruct (Z.eqb_spec w OV) as [->|n2]; [rewrite F; reflexivity|].
  unfold pair_properties_o. change (Z.eqb 4 REGION_NONE) with false. cbv iota. destruct (Z.eqb_spec w OR) as [->|n3]; [congruence|].
  destruct (Z.eqb_spec w OX) as [->|n4].
  - cbn -[Tv2x_reg4 Api.tx]. unfold tot2, tv_reg4. change (@add RArith t (@lit RArith (273.15%dec))) with (t + 273.15). rewrite E. reflexivity.
  - cbn -[Tv2x_reg4 Api.tx Tx_reg4]. unfold tot2, tv_reg4. change (@add RArith t (@lit RArith (273.15%dec))) with (t + 273.15). rewrite E, (proj2 (Z.eqb_neq w OX) n4), Q by assumption. reflexivity.
Qed.
Lemma ts_given s : @Ts2x_reg4 RArith (t + 273.15)%R s = x -> @Api.tx RArith t x OS = s -> @Api.ts RArith t s (from_pair (w, 4%Z)) = @Api.tx RArith t x w.
Proof.
  intros E F. unfold Api.ts. change (o_id_reg_info (from_pair (w, 4%Z))) with (w, 4%Z). cbv iota beta. pose proof tx_in as Q.
  destruct (Z.eqb_spec w OT) as [->|n1]; [reflexivity|]. destruct (Z.eqb_spec w OS) as [->|n2]; [rewrite F; reflexivity|].
  unfold pair_properties. change (Z.eqb 4 REGION_NONE) with false. cbv iota. destruct (Z.eqb_spec w OR) as [->|n3]; [congruence|].
  destruct (Z.eqb_spec w OX) as [->|n4].
  - cbn -[ts_reg4 Ts2x_reg4 Api.tx]. unfold ts_reg4. change (@add RArith t (@lit RArith (273.15%dec))) with (t + 273.15). rewrite E. reflexivity.
  - cbn -[ts_reg4 Ts2x_reg4 Api.tx Tx_reg4]. unfold ts_reg4. change (@add RArith t (@lit RArith (273.15%dec))) with (t + 273.15). rewrite E, (proj2 (Z.eqb_neq w OX) n4), Q by assumption. reflexivity.
Qed.
End Given.
Section GivenP.
Variables (fuel : positive) (p x : R) (w : Z).
Hypothesis Hw : w <> OR.
Hypothesis Hp : 0.000611212677444 <= p <= 22.064.
Hypothesis Hx : 0 <= x <= 1.
Lemma px_in : @Api.px RArith p x w = if Z.eqb w OP then p else if Z.eqb w OX then x else @px_reg4 RArith p x w.
Proof. destruct (in_px_R p x Hp Hx) as (C1 & C2 & C3 & C4). unfold Api.px. rewrite C1, C2, C3, C4. reflexivity. Qed.
Lemma pv_given v : @pv2x_reg4 RArith p v = x -> @Api.px RArith p x OV = v -> @Api.pv RArith p v (from_pair (w, 4%Z)) = @Api.px RArith p x w.
Proof.
  intros E F. unfold Api.pv. change (o_id_reg_info (from_pair (w, 4%Z))) with (w, 4%Z). cbv iota beta. pose proof px_in as Q.
  destruct (Z.eqb_spec w OP) as [->|n1]; [rewrite Q; reflexivity|]. destruct (Z.eqb_spec w OV) as [->|n2]; [rewrite F; reflexivity|].
  unfold pair_properties. change (Z.eqb 4 REGION_NONE) with false. cbv iota. destruct (Z.eqb_spec w OR) as [->|n3]; [congruence|]. rewrite Q.
  destruct (Z.eqb_spec w OX) as [->|n4]; cbn -[pv_reg4 pv2x_reg4 px_reg4]; unfold pv_reg4; rewrite E; [|rewrite (proj2 (Z.eqb_neq w OX) n4)]; reflexivity.
Qed.
Lemma ph_given h : (h - @p2sat_water RArith p OH) / (@p2sat_steam RArith p OH - @p2sat_water RArith p OH) = x -> @Api.px RArith p x OH = h -> @Api.ph RArith p h (from_pair (w, 4%Z)) = @Api.px RArith p x w.
Proof.
  intros E F. unfold Api.ph. change (o_id_reg_info (from_pair (w, 4%Z))) with (w, 4%Z). cbv iota beta. pose proof px_in as Q.
  destruct (Z.eqb_spec w OP) as [->|n1]; [rewrite Q; reflexivity|]. destruct (Z.eqb_spec w OH) as [->|n2]; [rewrite F; reflexivity|].
  unfold pair_properties. change (Z.eqb 4 REGION_NONE) with false. cbv iota. destruct (Z.eqb_spec w OR) as [->|n3]; [congruence|]. rewrite Q.
  change (@div RArith (@sub RArith h (@p2sat_water RArith p OH)) (@sub RArith (@p2sat_steam RArith p OH) (@p2sat_water RArith p OH)) = x) in E.
  destruct (Z.eqb_spec w OX) as [->|n4]; cbn -[ph_reg4 p2sat_water p2sat_steam px_reg4 sub div]; unfold ph_reg4; cbv zeta; rewrite E; [|rewrite (proj2 (Z.eqb_neq w OX) n4)]; reflexivity.
Qed.
Lemma ps_given s : (s - @p2sat_water RArith p OS) / (@p2sat_steam RArith p OS - @p2sat_water RArith p OS) = x -> @Api.px RArith p x OS = s -> @Api.ps RArith p s (from_pair (w, 4%Z)) = @Api.px RArith p x w.
Proof.
  intros E F. unfold Api.ps. change (o_id_reg_info (from_pair (w, 4%Z))) with (w, 4%Z). cbv iota beta. pose proof px_in as Q.
  destruct (Z.eqb_spec w OP) as [->|n1]; [rewrite Q; reflexivity|]. destruct (Z.eqb_spec w OS) as [->|n2]; [rewrite F; reflexivity|].
  unfold pair_properties. change (Z.eqb 4 REGION_NONE) with false. cbv iota. destruct (Z.eqb_spec w OR) as [->|n3]; [congruence|]. rewrite Q.
  change (@div RArith (@sub RArith s (@p2sat_water RArith p OS)) (@sub RArith (@p2sat_steam RArith p OS) (@p2sat_water RArith p OS)) = x) in E.
  destruct (Z.eqb_spec w OX) as [->|n4]; cbn -[ps_reg4 p2sat_water p2sat_steam px_reg4 sub div]; unfold ps_reg4; cbv zeta; rewrite E; [|rewrite (proj2 (Z.eqb_neq w OX) n4)]; reflexivity.
Qed.
End GivenP.

(* ---- the saturated states of the code ---- *)
Lemma sat_t t o : 0 <= t <= 350 -> In o [OH; OS; OV] ->
  @T2sat_water RArith (t + Kc)%R o = ptR 1 o (if97_psat (t + Kc)) t /\ @T2sat_steam RArith (t + Kc)%R o = ptR 2 o (if97_psat (t + Kc)) t.
Proof.
  intros H Ho. pose proof (T_range t H) as R. set (T := t + Kc) in *.
  assert (C : @ltb RArith (@nabs RArith (@sub RArith T TC_WATER)) FLOAT_ERROR = false).
  { unfold TC_WATER, FLOAT_ERROR. rnum. apply Rlt_b_false. rewrite Rabs_left1; lra. }
  assert (B2 : @leb RArith T (@lit RArith (623.15%dec)) = true) by (rnum; apply Rle_b_true; lra).
  unfold T2sat_water, T2sat_steam. cbv zeta. rewrite C, B2. rewrite psat_real by lra.
  cbn [In] in Ho. destruct Ho as [<-|[<-|[<-|[]]]]; split; reflexivity.
Qed.
Lemma sat_p p o : 0.000611212677444 <= p <= p_corner -> In o [OH; OS; OV] ->
  @p2sat_water RArith p o = ptR 1 o p (if97_tsat p - 273.15) /\ @p2sat_steam RArith p o = ptR 2 o p (if97_tsat p - 273.15).
Proof.
  intros H Ho. destruct (br_low p H) as (B1 & B2 & B3). unfold p2sat_water, p2sat_steam. cbv zeta. rewrite B2, B3. rewrite tsat_real by (unfold p_corner in H; lra).
  assert (E : if97_tsat p = if97_tsat p - 273.15 + 273.15) by ring. set (T := if97_tsat p - 273.15) in *. rewrite E. clearbody T. clear E.
  cbn [In] in Ho. destruct Ho as [<-|[<-|[<-|[]]]]; split; reflexivity.
Qed.
Lemma s0 p : 0.0006 <= p <= 17 -> -0.008 <= ptR 1 OS p 0.
Proof.
  intros H. rewrite (a_s _ _ _ (facts1 p 0 ltac:(split; [lra|]; split; [lra|]; left; split; [reflexivity|lra]))). unfold f_s. replace (0 + Kc) with (27315/100) by (unfold Kc; lra).
  change (Gib 1) with Gib1. tab. interval with (i_bisect p, i_autodiff p).
Qed.
Lemma s350 : ptR 2 OS 0.0006 350 <= 18.
Proof.
  rewrite (a_s _ _ _ (facts2 0.0006 350 ltac:(split; [lra|]; split; [lra|]; right; left; split; [reflexivity|lra]))). unfold f_s. replace (350 + Kc) with (62315/100) by (unfold Kc; lra).
  change (Gib 2) with Gib2. tab. interval.
Qed.

(* ---- automatic region ---- *)
Lemma auto4 fuel f a b w v : @call RArith fuel f a b (from_i32 OR) = Some 4 -> @call RArith fuel f a b (from_pair (w, 4%Z)) = Some v -> @call RArith fuel f a b (from_i32 w) = Some v.
Proof. intros A B. rewrite (@region_known RArith real_codes_distinct fuel f a b 4%Z); [exact B|apply in_or_app; left; cbn; auto|exact A]. Qed.
Lemma between_lin a b x : a < b -> 0 <= x <= 1 -> a <= a + x * (b - a) <= b. Proof. intros. nra. Qed.
Lemma between_lt a b x : a < b -> 0 < x < 1 -> a < a + x * (b - a) < b. Proof. intros. nra. Qed.
Section T.
Variables (fuel : positive) (t x : R) (w : Z).
Hypothesis H : 0 <= t <= 350.
Hypothesis Hx : 0 <= x <= 1.
Hypothesis Hw : w <> OR.
Let ps := if97_psat (t + Kc).
Let Tr : 273.15 <= t + 273.15 <= 647.096. Proof. lra. Qed.
Let Tw : wet_T (t + 273.15). Proof. unfold wet_T. lra. Qed.
Lemma tx_is o : In o [OH; OS; OV] -> @Api.tx RArith t x o = ptR 1 o ps t + x * (ptR 2 o ps t - ptR 1 o ps t) /\ @T2sat_water RArith (t + 273.15)%R o = ptR 1 o ps t /\ @T2sat_steam RArith (t + 273.15)%R o = ptR 2 o ps t /\ ptR 1 o ps t < ptR 2 o ps t.
Proof.
  intros Ho. assert (Ho' : In o (OV :: energy_ids)) by (cbn [In] in Ho; destruct Ho as [<-|[<-|[<-|[]]]]; cbn; auto).
  destruct (sat_t t o H Ho) as [A B]. destruct (tx_ends t o Tr Ho') as [C D]. pose proof (tx_gap t ltac:(lra)) as G. unfold gap in G.
  pose proof (tx_line t x o Tw Hx Ho') as L. rewrite C, D in L. change (t + 273.15) with (t + Kc) in *. rewrite A, B in L. split; [exact L|]. split; [exact A|]. split; [exact B|].
  unfold ps. rewrite <- A, <- B, <- C, <- D. cbn [In] in Ho. destruct Ho as [<-|[<-|[<-|[]]]]; lra.
Qed.
Lemma wet_tv : @call RArith fuel TV t (@Api.tx RArith t x OV) (from_i32 w) = Some (@Api.tx RArith t x w).
Proof.
  destruct (tx_is OV ltac:(cbn; auto)) as (L & A & B & G). apply auto4.
  - apply (proj1 (tv4 fuel t _ H)). rewrite L. apply between_lin; assumption.
  - apply tv_given; [exact Hw|exact Tr|exact Hx| |reflexivity]. unfold Tv2x_reg4. cbv zeta. rewrite A, B, L. apply quality. lra.
Qed.
Lemma wet_th (E : th_region fuel t (@Api.tx RArith t x OH) = Some 4) : @call RArith fuel TH t (@Api.tx RArith t x OH) (from_i32 w) = Some (@Api.tx RArith t x w).
Proof.
  destruct (tx_is OH ltac:(cbn; auto)) as (L & A & B & G). apply auto4; [exact E|].
  apply th_given; [exact Hw|exact Tr|exact Hx| |reflexivity]. unfold Th2x_reg4. cbv zeta. rewrite A, B, L. apply quality. lra.
Qed.
Lemma wet_th_hot : 250 <= t -> @call RArith fuel TH t (@Api.tx RArith t x OH) (from_i32 w) = Some (@Api.tx RArith t x w).
Proof. intros Hh. apply wet_th. destruct (tx_is OH ltac:(cbn; auto)) as (L & A & B & G). apply (th_hot fuel t _ ltac:(lra)). rewrite L. apply between_lin; assumption. Qed.
Lemma wet_th_cold : t < 250 -> ptR 1 OH 100 t < @Api.tx RArith t x OH -> @call RArith fuel TH t (@Api.tx RArith t x OH) (from_i32 w) = Some (@Api.tx RArith t x w).
Proof.
  intros Hh M. apply wet_th. destruct (tx_is OH ltac:(cbn; auto)) as (L & A & B & G). apply (proj2 (th_cold fuel t _ ltac:(lra))). split; [rewrite L; apply between_lin; assumption|]. lra.
Qed.
Lemma s_wet s : ptR 1 OS ps t <= s <= ptR 2 OS ps t -> s_range s.
Proof.
  intros Hs. pose proof (ps_range t H) as Pg. pose proof (T_range t H) as Rg. cbv beta in *. fold ps in Pg. unfold s_range.
  assert (A : ptR 1 OS ps 0 <= ptR 1 OS ps t).
  { destruct (proj1 H) as [E| <-]; [|apply Rle_refl]. left. apply s_incr1; [unfold Kc; lra|exact E|]. apply (w1 t H). fold ps. lra. }
  pose proof (s0 ps ltac:(lra)).
  assert (W : wide2 ps (350 + Kc)).
  { split; [unfold Kc; lra|]. split; [unfold Kc; lra|]. split; [intros _|unfold Kc; intros; lra]. unfold ps. replace (350 + Kc) with 623.15 by (unfold Kc; lra). pose proof (mono_le (t + Kc) 623.15 ltac:(lra) ltac:(lra) ltac:(lra)). lra. }
  assert (B : ptR 2 OS ps t <= ptR 2 OS ps 350).
  { destruct (proj2 H) as [E| ->]; [|apply Rle_refl]. left. apply s_incr2; [|exact E|unfold Kc; lra]. apply (w2 t H). fold ps. lra. }
  pose proof (s_decr2 350 0.0006 ps ltac:(lra) ltac:(lra) W). pose proof s350. lra.
Qed.
Lemma wet_ts : @call RArith fuel TS t (@Api.tx RArith t x OS) (from_i32 w) = Some (@Api.tx RArith t x w).
Proof.
  destruct (tx_is OS ltac:(cbn; auto)) as (L & A & B & G). pose proof (between_lin _ _ x G Hx) as I. apply auto4.
  - apply (f_equal Some). apply (ts4 t _ H); rewrite L; [apply s_wet|]; exact I.
  - apply (f_equal Some). apply ts_given; [exact Hw|exact Tr|exact Hx| |reflexivity]. unfold Ts2x_reg4. cbv zeta. rewrite A, B, L. apply quality. lra.
Qed.
End T.
Section P.
Variables (fuel : positive) (p x : R) (w : Z).
Hypothesis H : 0.000611213 < p <= p_corner.
Hypothesis Hx : 0 < x < 1.
Hypothesis Hw : w <> OR.
Let T := if97_tsat p.
Let Pr : 0.000611212677444 <= p <= 22.064. Proof. unfold p_corner in H. lra. Qed.
Let Pl : 0.000611212677444 <= p <= 16.5291642526045. Proof. unfold p_corner in H. lra. Qed.
Let Pm : if97_psat 273.15 <= p <= 100. Proof. pose proof psat_273. unfold p_corner in H. lra. Qed.
Let Hx' : 0 <= x <= 1. Proof. lra. Qed.
Lemma px_is o : In o [OH; OS; OV] -> @Api.px RArith p x o = ptR 1 o p (T - 273.15) + x * (ptR 2 o p (T - 273.15) - ptR 1 o p (T - 273.15)) /\ @p2sat_water RArith p o = ptR 1 o p (T - 273.15) /\ @p2sat_steam RArith p o = ptR 2 o p (T - 273.15) /\ ptR 1 o p (T - 273.15) < ptR 2 o p (T - 273.15).
Proof.
  intros Ho. assert (Ho' : In o (OV :: energy_ids)) by (cbn [In] in Ho; destruct Ho as [<-|[<-|[<-|[]]]]; cbn; auto).
  destruct (sat_p p o Pl Ho) as [A B]. destruct (px_ends p o Pr Ho') as [C D]. pose proof (px_gap p Pl) as G. unfold gap in G.
  pose proof (px_line p x o (or_introl Pl) Hx' Ho') as L. rewrite C, D, A, B in L. split; [exact L|]. split; [exact A|]. split; [exact B|].
  unfold T. rewrite <- A, <- B, <- C, <- D. cbn [In] in Ho. destruct Ho as [<-|[<-|[<-|[]]]]; lra.
Qed.
Lemma wet_ph : @call RArith fuel PH p (@Api.px RArith p x OH) (from_i32 w) = Some (@Api.px RArith p x w).
Proof.
  destruct (px_is OH ltac:(cbn; auto)) as (L & A & B & G). pose proof (between_lt _ _ x G Hx) as I. apply auto4.
  - apply (f_equal Some). destruct (ph_rest p Pm (@Api.px RArith p x OH)) as (_ & E & _). apply E. unfold hottest_liquid, coldest_vapour.
    destruct (Rle_dec p p_corner) as [K|K]; [|lra]. rewrite L. split; [exact I|left; exact K].
  - apply (f_equal Some). apply ph_given; [exact Hw|exact Pr|exact Hx'| |reflexivity]. rewrite A, B, L. apply quality. lra.
Qed.
Lemma wet_ps : @call RArith fuel PS p (@Api.px RArith p x OS) (from_i32 w) = Some (@Api.px RArith p x w).
Proof.
  destruct (px_is OS ltac:(cbn; auto)) as (L & A & B & G). pose proof (between_lt _ _ x G Hx) as I. apply auto4.
  - apply (f_equal Some). destruct (ps_rest p Pm (@Api.px RArith p x OS)) as (_ & E & _). apply E. unfold hottest_liquid, coldest_vapour.
    destruct (Rle_dec p p_corner) as [K|K]; [|lra]. rewrite L. split; [exact I|left; exact K].
  - apply (f_equal Some). apply ps_given; [exact Hw|exact Pr|exact Hx'| |reflexivity]. rewrite A, B, L. apply quality. lra.
Qed.
Lemma wet_pv : @call RArith fuel PV p (@Api.px RArith p x OV) (from_i32 w) = Some (@Api.px RArith p x w).
Proof.
  destruct (px_is OV ltac:(cbn; auto)) as (L & A & B & G). pose proof (between_lt _ _ x G Hx) as I. apply auto4.
  - apply (f_equal Some). apply (proj1 (pv4 p (@Api.px RArith p x OV) (or_introl H) (proj2 H))). rewrite L. fold T. lra.
  - apply (f_equal Some). apply pv_given; [exact Hw|exact Pr|exact Hx'| |reflexivity]. unfold pv2x_reg4. cbv zeta. rewrite A, B, L. apply quality. lra.
Qed.
End P.

(* the statements of the property file *)
Lemma trip_p fuel f o w p x : In (f, o) [(PH, OH); (PS, OS); (PV, OV)] -> 0.000611213 < p <= p_corner -> 0 < x < 1 -> w <> OR ->
  @call RArith fuel f p (@Api.px RArith p x o) (from_i32 w) = Some (@Api.px RArith p x w).
Proof. intros Hf Hp Hx Hw. cbn [In] in Hf; destruct Hf as [E|[E|[E|[]]]]; injection E as <- <-; [apply wet_ph|apply wet_ps|apply wet_pv]; assumption. Qed.
Lemma trip_t fuel f o w t x : In (f, o) [(TS, OS); (TV, OV)] -> 0 <= t <= 350 -> 0 <= x <= 1 -> w <> OR ->
  @call RArith fuel f t (@Api.tx RArith t x o) (from_i32 w) = Some (@Api.tx RArith t x w).
Proof. intros Hf Hp Hx Hw. cbn [In] in Hf; destruct Hf as [E|[E|[]]]; injection E as <- <-; [apply wet_ts|apply wet_tv]; assumption. Qed.
Lemma trip_th_hot fuel w t x : 250 <= t <= 350 -> 0 <= x <= 1 -> w <> OR ->
  @call RArith fuel TH t (@Api.tx RArith t x OH) (from_i32 w) = Some (@Api.tx RArith t x w).
Proof. intros H Hx Hw. apply wet_th_hot; [lra|assumption|assumption|lra]. Qed.
Lemma trip_th_cold fuel w t x : 0 <= t < 250 -> 0 <= x <= 1 -> ptR 1 OH 100 t < @Api.tx RArith t x OH -> w <> OR ->
  @call RArith fuel TH t (@Api.tx RArith t x OH) (from_i32 w) = Some (@Api.tx RArith t x w).
Proof. intros H Hx M Hw. apply wet_th_cold; [lra|assumption|assumption|lra|exact M]. Qed.
Lemma trip_th_zero fuel t : 0 <= t <= 235 -> exists x, 0 < x < 1 /\ @call RArith fuel TH t (@Api.tx RArith t x OH) (from_i32 OX) = Some 0.
Proof.
  intros H. destruct (th_wet_lost fuel t H) as (x & X & E). exists x. split; [exact X|].
  destruct (tx_is t x ltac:(lra) ltac:(lra) OH ltac:(cbn; auto)) as (L & _). change (t + 273.15) with (t + Kc) in E. rewrite <- L in E.
  rewrite (@region_known RArith real_codes_distinct fuel TH t _ 1%Z); [|apply in_or_app; left; cbn; auto|exact E]. apply (f_equal Some). cbn. lra.
Qed.
Lemma dry_end t : 0 <= t <= 350 -> ptR 1 OH 100 t < @Api.tx RArith t 1 OH.
Proof.
  intros H. destruct (tx_is t 1 H ltac:(lra) OH ltac:(cbn; auto)) as (L & _). rewrite L. destruct (h_gap t H) as [A B]. lra.
Qed.
