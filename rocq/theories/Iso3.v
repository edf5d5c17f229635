(* The region map of tv and ts between 350 and 590 C: region 3 and wet steam. *)
From Coq Require Import ZArith Reals List Bool Lra Lia.
From Verif Require Import RegionMap SpecSub3 Num RealInst Constant R4Sat Reg1 Reg2 Reg5 Reg3Td Boundaries Reg1Back Reg2Back Reg3V Reg3 Reg4 Region Api Spec SpecReal SpecWet SatInv RealSat SatApi Lever LeverReal
  SpecThermo SpecIso Map12 TvMap IsoMap PvMap.
Import ListNotations.
Open Scope R_scope.

Lemma E100' : @lit RArith (100.0%dec) = 100%R. Proof. rnum. lra. Qed.
Section Iso.
Variable t : R.
Let T := t + 273.15.
Let pb := if97_b23 T.

(* the saturated values of the code *)
Lemma sat3 o : 350 < t <= 373.946 - 1e-6 -> In o [OV; OS] ->
  @Api.tx RArith t 0 o = @Td_reg3 RArith T (@div RArith (@lit RArith (1.0%dec)) (@pT2v_sat_reg3 RArith (@p_saturation RArith T) T (@lit RArith (0.0%dec)))) o /\
  @Api.tx RArith t 1 o = @Td_reg3 RArith T (@div RArith (@lit RArith (1.0%dec)) (@pT2v_sat_reg3 RArith (@p_saturation RArith T) T (@lit RArith (1.0%dec)))) o.
Proof.
  intros H Ho. destruct (tx_ends t o ltac:(lra) ltac:(cbn in Ho |- *; tauto)) as [-> ->]. fold T.
  assert (C : @ltb RArith (@nabs RArith (@sub RArith T TC_WATER)) FLOAT_ERROR = false).
  { unfold TC_WATER, FLOAT_ERROR, T. rnum. apply Rlt_b_false. rewrite Rabs_left1; lra. }
  assert (B2 : @leb RArith T (@lit RArith (623.15%dec)) = false) by (unfold T; rnum; apply Rle_b_false; lra).
  unfold T2sat_water, T2sat_steam. cbv zeta. rewrite C, B2.
  cbn [In] in Ho. destruct Ho as [<-|[<-|[]]].
  - split; [|reflexivity]. symmetry. exact (inv_inv _).
  - split; reflexivity.
Qed.
Lemma sat3v : 350 < t <= 373.946 - 1e-6 ->
  @pT2v_sat_reg3 RArith (@p_saturation RArith T) T (@lit RArith (0.0%dec)) = @Api.tx RArith t 0 OV /\ @pT2v_sat_reg3 RArith (@p_saturation RArith T) T (@lit RArith (1.0%dec)) = @Api.tx RArith t 1 OV.
Proof. intros H. destruct (sat3 OV H ltac:(cbn; auto)) as [-> ->]. split; symmetry; exact (inv_inv _). Qed.

Lemma v_super v : 373.946 < t <= 590 -> (IZR (@tv_sub_region RArith t v) = 3 <-> ptR 3 OV 100 t <= v < ptR 2 OV pb t).
Proof.
  intros H. assert (R : 647.096 < T <= 863.15) by (unfold T; lra). unfold tv_sub_region. cbv zeta. change (@add RArith t (@lit RArith (273.15%dec))) with T. rewrite E8, E100'.
  change (ptR 2 OV pb t) with (@pT2v_reg2 RArith pb T). change (ptR 3 OV 100 t) with (@pT2v_reg3 RArith 100%R T). replace (@B23_T2p RArith T) with pb by (symmetry; apply b23_real).
  set (f1 := @pT2v_reg1 RArith). set (f2 := @pT2v_reg2 RArith). set (f3 := @pT2v_reg3 RArith). set (f5 := @pT2v_reg5 RArith).
  set (psa := @p_saturation RArith). set (vs3 := @pT2v_sat_reg3 RArith). set (sw := @T2sat_water RArith). set (ss := @T2sat_steam RArith).
  set (c := f2 pb T). set (d := f2 1e-8%R T). set (a := f3 100%R T).
  clearbody f1 f2 f3 f5 a c d psa vs3 sw ss pb T. clear H. tkonst. rnum.
  unfold Rle_b, Rlt_b. tcases T; vcases; change INVALID_VALUE with (-9999)%Z; split; intros; lra.
Qed.
Lemma v_sub v : 350 < t <= 373.946 - 1e-6 ->
  (IZR (@tv_sub_region RArith t v) = 3 <-> @Api.tx RArith t 1 OV < v < ptR 2 OV pb t \/ ptR 3 OV 100 t <= v < @Api.tx RArith t 0 OV /\ ~ ptR 2 OV pb t <= v < ptR 2 OV 1e-8 t) /\
  (IZR (@tv_sub_region RArith t v) = 4 <-> @Api.tx RArith t 0 OV <= v <= @Api.tx RArith t 1 OV /\ ~ ptR 2 OV pb t <= v < ptR 2 OV 1e-8 t).
Proof.
  intros H. assert (R : 623.15 < T <= 647.096) by (unfold T; lra). destruct (sat3v H) as [S0 S1]. unfold tv_sub_region. cbv zeta. change (@add RArith t (@lit RArith (273.15%dec))) with T. rewrite S0, S1, E8, E100'.
  change (ptR 2 OV pb t) with (@pT2v_reg2 RArith pb T). change (ptR 2 OV 1e-8 t) with (@pT2v_reg2 RArith 1e-8%R T). change (ptR 3 OV 100 t) with (@pT2v_reg3 RArith 100%R T). replace (@B23_T2p RArith T) with pb by (symmetry; apply b23_real).
  clear S0 S1. generalize (@Api.tx RArith t 0 OV) (@Api.tx RArith t 1 OV). intros w s. change (@num RArith) with Rdefinitions.RbaseSymbolsImpl.R in w, s.
  set (f1 := @pT2v_reg1 RArith). set (f2 := @pT2v_reg2 RArith). set (f3 := @pT2v_reg3 RArith). set (f5 := @pT2v_reg5 RArith).
  set (psa := @p_saturation RArith). set (sw := @T2sat_water RArith). set (ss := @T2sat_steam RArith).
  set (c := f2 pb T). set (d := f2 1e-8%R T). set (a := f3 100%R T).
  clearbody f1 f2 f3 f5 a c d psa sw ss pb T. clear H. tkonst. rnum.
  unfold Rle_b, Rlt_b. tcases T; vcases; change INVALID_VALUE with (-9999)%Z; split; split; intros; lra.
Qed.
Lemma v_out v : t < 0 \/ 2000 < t -> IZR (@tv_sub_region RArith t v) = -9999.
Proof.
  intros H. unfold tv_sub_region. cbv zeta. change (@add RArith t (@lit RArith (273.15%dec))) with T.
  replace (@ltb RArith T (@lit RArith (273.15%dec)) || @ltb RArith (@lit RArith (2273.15%dec)) T)%bool with true; [reflexivity|]. symmetry. apply orb_true_iff.
  destruct H; [left|right]; unfold T; rnum; apply Rlt_b_true; lra.
Qed.
Lemma sat3s : 350 < t <= 373.946 - 1e-6 ->
  @Td2s_reg3 RArith T (@div RArith (@lit RArith (1.0%dec)) (@pT2v_sat_reg3 RArith (@p_saturation RArith T) T (@lit RArith (0.0%dec)))) = @Api.tx RArith t 0 OS /\
  @Td2s_reg3 RArith T (@div RArith (@lit RArith (1.0%dec)) (@pT2v_sat_reg3 RArith (@p_saturation RArith T) T (@lit RArith (1.0%dec)))) = @Api.tx RArith t 1 OS.
Proof. intros H. destruct (sat3 OS H ltac:(cbn; auto)) as [-> ->]. split; reflexivity. Qed.
Lemma s_super s : s_range s -> 373.946 < t <= 590 -> (IZR (@ts_sub_region RArith t s) = 3 <-> ptR 3 OS 100 t <= s < ptR 2 OS pb t).
Proof.
  intros Hs H. unfold s_range in Hs. assert (R : 647.096 < T <= 863.15) by (unfold T; lra). unfold ts_sub_region. cbv zeta. change (@add RArith t (@lit RArith (273.15%dec))) with T. rewrite E8, E100'.
  change (ptR 2 OS pb t) with (@pT2s_reg2 RArith pb T). change (ptR 3 OS 100 t) with (@pT_reg3 RArith 100%R T OS). replace (@B23_T2p RArith T) with pb by (symmetry; apply b23_real).
  set (f1 := @pT2s_reg1 RArith). set (f2 := @pT2s_reg2 RArith). set (f3 := @pT_reg3 RArith). set (f5 := @pT2s_reg5 RArith). set (td := @Td2s_reg3 RArith).
  set (c := f2 pb T). set (d := f2 1e-8%R T). set (a := f3 100%R T OS). set (psa := @p_saturation RArith). set (vs3 := @pT2v_sat_reg3 RArith).
  clearbody f1 f2 f3 f5 a c d psa vs3 td pb T. clear H. tkonst. rnum.
  unfold Rle_b, Rlt_b. tcases T; vcases; change INVALID_VALUE with (-9999)%Z; change INVALID_S with (-2102)%Z; split; intros; lra.
Qed.
Lemma s_sub s : s_range s -> 350 < t <= 373.946 - 1e-6 ->
  (IZR (@ts_sub_region RArith t s) = 3 <-> @Api.tx RArith t 1 OS < s < ptR 2 OS pb t \/ ptR 3 OS 100 t <= s < @Api.tx RArith t 0 OS /\ ~ ptR 2 OS pb t <= s < ptR 2 OS 1e-8 t) /\
  (IZR (@ts_sub_region RArith t s) = 4 <-> @Api.tx RArith t 0 OS <= s <= @Api.tx RArith t 1 OS /\ ~ ptR 2 OS pb t <= s < ptR 2 OS 1e-8 t).
Proof.
  intros Hs H. unfold s_range in Hs. assert (R : 623.15 < T <= 647.096) by (unfold T; lra). destruct (sat3s H) as [S0 S1]. unfold ts_sub_region. cbv zeta. change (@add RArith t (@lit RArith (273.15%dec))) with T. rewrite S0, S1, E8, E100'.
  change (ptR 2 OS pb t) with (@pT2s_reg2 RArith pb T). change (ptR 2 OS 1e-8 t) with (@pT2s_reg2 RArith 1e-8%R T). change (ptR 3 OS 100 t) with (@pT_reg3 RArith 100%R T OS). replace (@B23_T2p RArith T) with pb by (symmetry; apply b23_real).
  clear S0 S1. generalize (@Api.tx RArith t 0 OS) (@Api.tx RArith t 1 OS). intros w st. change (@num RArith) with Rdefinitions.RbaseSymbolsImpl.R in w, st.
  set (f1 := @pT2s_reg1 RArith). set (f2 := @pT2s_reg2 RArith). set (f3 := @pT_reg3 RArith). set (f5 := @pT2s_reg5 RArith).
  set (c := f2 pb T). set (d := f2 1e-8%R T). set (a := f3 100%R T OS). set (psa := @p_saturation RArith).
  clearbody f1 f2 f3 f5 a c d psa pb T. clear H. tkonst. rnum.
  unfold Rle_b, Rlt_b. tcases T; vcases; change INVALID_VALUE with (-9999)%Z; change INVALID_S with (-2102)%Z; split; split; intros; lra.
Qed.
Lemma s_out s : (t < 0 \/ 2000 < t -> IZR (@ts_sub_region RArith t s) = IZR INVALID_T) /\
  (0 <= t <= 2000 -> ~ s_range s -> IZR (@ts_sub_region RArith t s) = IZR INVALID_S).
Proof.
  unfold ts_sub_region, s_range. cbv zeta. change (@add RArith t (@lit RArith (273.15%dec))) with T.
  split.
  - intros H. replace (@ltb RArith T (@lit RArith (273.15%dec)) || @ltb RArith (@lit RArith (2273.15%dec)) T)%bool with true; [reflexivity|]. symmetry. apply orb_true_iff.
    destruct H; [left|right]; unfold T; rnum; apply Rlt_b_true; lra.
  - intros H Hs. replace (@ltb RArith T (@lit RArith (273.15%dec)) || @ltb RArith (@lit RArith (2273.15%dec)) T)%bool with false.
    + replace (@ltb RArith S_MAX s || @ltb RArith s S_MIN)%bool with true; [reflexivity|]. symmetry. apply orb_true_iff.
      unfold S_MAX, S_MIN. destruct (Rle_lt_dec s 18.992); [right|left]; rnum; apply Rlt_b_true; lra.
    + symmetry. apply orb_false_iff. split; unfold T; rnum; apply Rlt_b_false; lra.
Qed.
End Iso.
(* the statements of the property file *)
Lemma tv3_super fuel t v : 373.946 < t <= 590 -> (tv_region fuel t v = Some 3 <-> ptR 3 OV 100 t <= v < ptR 2 OV (if97_b23 (t + 273.15)) t).
Proof. intros H. rewrite (tv_some fuel t v 3). exact (v_super t v H). Qed.
Lemma tv3_sub fuel t v : 350 < t <= 373.946 - 1e-6 -> let vb := ptR 2 OV (if97_b23 (t + 273.15)) t in
  (tv_region fuel t v = Some 3 <-> @Api.tx RArith t 1 OV < v < vb \/ ptR 3 OV 100 t <= v < @Api.tx RArith t 0 OV /\ ~ vb <= v < ptR 2 OV 1e-8 t) /\
  (tv_region fuel t v = Some 4 <-> @Api.tx RArith t 0 OV <= v <= @Api.tx RArith t 1 OV /\ ~ vb <= v < ptR 2 OV 1e-8 t).
Proof. intros H. cbv zeta. rewrite (tv_some fuel t v 3), (tv_some fuel t v 4). exact (v_sub t v H). Qed.
Lemma tv_out fuel t v : t < 0 \/ 2000 < t -> tv_region fuel t v = Some (-9999).
Proof. intros H. rewrite (tv_some fuel t v (-9999)). exact (v_out t v H). Qed.
Lemma ts3_super t s : 373.946 < t <= 590 -> s_range s -> (ts_region t s = 3 <-> ptR 3 OS 100 t <= s < ptR 2 OS (if97_b23 (t + 273.15)) t).
Proof. intros H Hs. exact (s_super t s Hs H). Qed.
Lemma ts3_sub t s : 350 < t <= 373.946 - 1e-6 -> s_range s -> let sb := ptR 2 OS (if97_b23 (t + 273.15)) t in
  (ts_region t s = 3 <-> @Api.tx RArith t 1 OS < s < sb \/ ptR 3 OS 100 t <= s < @Api.tx RArith t 0 OS /\ ~ sb <= s < ptR 2 OS 1e-8 t) /\
  (ts_region t s = 4 <-> @Api.tx RArith t 0 OS <= s <= @Api.tx RArith t 1 OS /\ ~ sb <= s < ptR 2 OS 1e-8 t).
Proof. intros H Hs. exact (s_sub t s Hs H). Qed.
Lemma ts_out t s : (t < 0 \/ 2000 < t -> ts_region t s = -2101) /\ (0 <= t <= 2000 -> ~ s_range s -> ts_region t s = -2102).
Proof. exact (s_out t s). Qed.
