(* The subregion search of region 3 over R, and the volume equation of 3l. *)
From Coq Require Import ZArith String List Bool Reals Lra Lia.
From Coquelicot Require Import Coquelicot.
From Interval Require Import Tactic.
From Verif Require Import Num Types Algo Constant R4Sat Reg3Sub Reg3V Reg3 Region Api RealInst RealSat RegionMap Spec SpecReal RegionPt SpecSub3 SpecSums Steps RSums SumUses.
Import ListNotations.
Open Scope R_scope.

Lemma tsat_real p : 0.000611212677 <= p <= 22.064 -> @T_saturation RArith p = if97_tsat p.
Proof.
  intros Hp. unfold T_saturation, region4_sat_pT_n. cbv zeta. cbn [nth].
  rewrite (proj2 (orb_false_iff _ _)) by (split; rnum; apply Rlt_b_false; lra).
  unfold if97_tsat. cbv zeta.
  assert (E : @powf RArith p (@lit RArith (0.25%dec)) = sqrt (sqrt p)).
  { rnum. unfold R_powf. destruct (Rlt_dec 0 p) as [P|P]; [|lra].
    rewrite <- (Rpower_sqrt (sqrt p)) by (apply sqrt_lt_R0; lra). rewrite <- (Rpower_sqrt p) by lra.
    rewrite Rpower_mult. f_equal. lra. }
  rewrite E. set (b := sqrt (sqrt p)). rnum.
  match goal with |- _ * (_ + ?d - sqrt _) = _ => set (D := d) end.
  match goal with |- _ = (_ + ?d - sqrt _) / 2 => replace d with D end.
  - replace ((65017534844798 / 100000000000 + D) * (65017534844798 / 100000000000 + D) -
      40 / 10 * (-23855557567849 / 100000000000000 + 65017534844798 / 100000000000 * D))
      with ((650.17534844798 + D) ^ 2 - 4 * (-0.23855557567849 + 650.17534844798 * D)) by lra. lra.
  - unfold D. f_equal; [lra|]. f_equal; [lra|]. f_equal. lra.
Qed.

(* the boundary temperatures *)
Ltac bnd := cbv beta iota zeta delta [T_atRegionBoundary String.eqb Ascii.eqb Bool.eqb fold_left seq nth powi RArith
  T_atRegionBoundary_I3ab T_atRegionBoundary_I3cd T_atRegionBoundary_I3gh T_atRegionBoundary_I3ij T_atRegionBoundary_I3jk
  T_atRegionBoundary_I3mn T_atRegionBoundary_I3op T_atRegionBoundary_I3qu T_atRegionBoundary_I3rx T_atRegionBoundary_I3uv
  T_atRegionBoundary_I3wx T_atRegionBoundary_n3ab T_atRegionBoundary_n3cd T_atRegionBoundary_n3gh T_atRegionBoundary_n3ij
  T_atRegionBoundary_n3jk T_atRegionBoundary_n3mn T_atRegionBoundary_n3op T_atRegionBoundary_n3qu T_atRegionBoundary_n3rx
  T_atRegionBoundary_n3uv T_atRegionBoundary_n3wx]; rnum;
  cbv [T3ab T3cd T3ef T3gh T3ij T3jk T3mn T3op T3qu T3rx T3uv T3wx powerRZ Pos.to_nat Pos.iter_op Init.Nat.add].
Lemma e3cd p : @T_atRegionBoundary RArith p "3cd" = T3cd p. Proof. bnd. lra. Qed.
Lemma e3ef p : @T_atRegionBoundary RArith p "3ef" = T3ef p. Proof. bnd. lra. Qed.
Lemma e3gh p : @T_atRegionBoundary RArith p "3gh" = T3gh p. Proof. bnd. lra. Qed.
Lemma e3ij p : @T_atRegionBoundary RArith p "3ij" = T3ij p. Proof. bnd. lra. Qed.
Lemma e3jk p : @T_atRegionBoundary RArith p "3jk" = T3jk p. Proof. bnd. lra. Qed.
Lemma e3mn p : @T_atRegionBoundary RArith p "3mn" = T3mn p. Proof. bnd. lra. Qed.
Lemma e3qu p : @T_atRegionBoundary RArith p "3qu" = T3qu p. Proof. bnd. lra. Qed.
Lemma e3rx p : @T_atRegionBoundary RArith p "3rx" = T3rx p. Proof. bnd. lra. Qed.
Lemma e3uv p : @T_atRegionBoundary RArith p "3uv" = T3uv p. Proof. bnd. lra. Qed.
Lemma e3ab p : @T_atRegionBoundary RArith p "3ab" = T3ab p. Proof. bnd. rewrite ?pow_1. lra. Qed.
Lemma e3op p : @T_atRegionBoundary RArith p "3op" = T3op p. Proof. bnd. rewrite ?pow_1. lra. Qed.
Lemma e3wx p : @T_atRegionBoundary RArith p "3wx" = T3wx p. Proof. bnd. rewrite ?pow_1. lra. Qed.

Lemma p643_val : 21.0433 <= p643 <= 21.0434.
Proof. unfold p643, if97_psat. split; interval. Qed.
Lemma ltb_R a b : @ltb RArith a b = Rlt_b a b. Proof. reflexivity. Qed.
Lemma leb_R a b : @leb RArith a b = Rle_b a b. Proof. reflexivity. Qed.

(* decide every real comparison in the goal *)
Ltac cmp := repeat match goal with
  | |- context [Rlt_b ?a ?b] => let H := fresh "C" in
      destruct (Rlt_dec a b) as [H|H]; [rewrite (Rlt_b_true a b H) | rewrite (Rlt_b_false a b (Rnot_lt_le _ _ H)); apply Rnot_lt_le in H]; cbn [andb]; try (exfalso; lra)
  | |- context [Rle_b ?a ?b] => let H := fresh "C" in
      destruct (Rle_dec a b) as [H|H]; [rewrite (Rle_b_true a b H) | rewrite (Rle_b_false a b (Rnot_le_lt _ _ H)); apply Rnot_le_lt in H]; cbn [andb]; try (exfalso; lra)
  end.

Ltac boundaries := rewrite ?e3cd, ?e3ef, ?e3gh, ?e3ij, ?e3jk, ?e3mn, ?e3qu, ?e3rx, ?e3uv, ?e3ab, ?e3op, ?e3wx.
Ltac leaf := cbn [in_subregion]; unfold p3cd in *;
  first [ repeat split; lra | left; repeat split; lra | right; repeat split; lra
        | right; left; repeat split; lra | right; right; repeat split; lra ].

Lemma psat643 : @p_saturation RArith (@lit RArith (643.15%dec)) = p643.
Proof. rewrite psat_real by (rnum; lra). reflexivity. Qed.

(* the search finds a subregion of the release, except where c and k are overwritten *)
Lemma sub_ok p T : 16 <= p <= 100 -> (p643 < p <= 22.5 -> T3cd p < T <= T3jk p) ->
  in_subregion (@sub_region3_pT RArith p T) p T.
Proof.
  intros Hp Hx. pose proof p643_val as H6.
  unfold sub_region3_pT. boundaries. rewrite psat643. cbv zeta.
  assert (Ht : 22.064 < p \/ @T_saturation RArith p = if97_tsat p)
    by (destruct (Rle_dec p 22.064); [right; apply tsat_real; lra | left; lra]).
  destruct Ht as [Ht | ->]; [generalize (@T_saturation RArith p); intros ts|]; rnum.
  all: destruct (Rle_dec p (225/10)); [destruct (Rle_dec p p643) | ]; [clear Hx | pose proof (Hx ltac:(lra)) | clear Hx ].
  all: cmp; leaf.
Qed.

(* in psat(643.15) < p <= 22.5 subregions c and k are never reported *)
Lemma never_ck p T : p643 < p <= 22.5 -> @sub_region3_pT RArith p T <> sub_c /\ @sub_region3_pT RArith p T <> sub_k.
Proof.
  intros Hp. pose proof p643_val as H6. unfold sub_region3_pT. boundaries. rewrite psat643. cbv zeta.
  generalize (@T_saturation RArith p); intros ts; rnum. cmp; split; discriminate.
Qed.

Lemma powf_1 x : @powf RArith x (@lit RArith (1.0%dec)) = x.
Proof.
  change (R_powf x (10 / 10) = x). unfold R_powf. replace (10 / 10) with 1 by lra.
  destruct (Rlt_dec 0 x); [apply Rpower_1; assumption|].
  assert (I : Int_part 1 = 1%Z).
  { unfold Int_part. rewrite <- (tech_up 1 2); [reflexivity| |]; lra. }
  rewrite I. destruct (Req_EM_T 1 1); [|lra]. cbn [powerRZ]. change (Pos.to_nat 1) with 1%nat. ring.
Qed.
Lemma powf_4 x : 0 < x -> @powf RArith x (@lit RArith (4.0%dec)) = x ^ 4.
Proof.
  intros H. change (R_powf x (40 / 10) = x ^ 4). unfold R_powf. destruct (Rlt_dec 0 x); [|lra].
  replace (40 / 10) with (INR 4) by (cbn; lra). now apply Rpower_pow.
Qed.

Lemma pt_v3 fuel p t : (0.000611212677444 < p <= 100)%R -> 623.15 < t + 273.15 <= 863.15 -> if97_b23 (t + 273.15) < p ->
  (t + 273.15 < 647.096 -> 1e-6 <= Rabs (p - if97_psat (t + 273.15)) / if97_psat (t + 273.15))%R ->
  ~ (t + 273.15 = 647.096 /\ p = 22.064)%R ->
  @call RArith fuel PT p t (from_i32 OV) = Some (@pT2v_reg3 RArith p (t + 273.15)%R).
Proof.
  intros Hp Ht Hb Ho Hc.
  pose proof (real_pt_region fuel p t 3) as H. cbv zeta in H.
  specialize (H Hp (conj (fun A => Ho (proj2 A)) Hc)).
  assert (R : if97_region_R p (t + 273.15) 3) by (do 4 right; left; repeat split; lra).
  specialize (H R). cbn [call pt o_id_reg_info from_i32 args_o_id args_region default_args] in *.
  unfold pt, pair_properties in *. cbn [o_id_reg_info from_i32 args_o_id args_region default_args Z.eqb OP OT OV OR OX REGION_NONE orb] in *.
  change (Z.eqb REGION_NONE REGION_NONE) with true in *. cbv iota beta in *.
  assert (E : @pT_sub_region RArith p (@add RArith t (@lit RArith (273.15%dec))) = 3%Z).
  { apply eq_IZR. injection H as H. exact H. }
  rewrite E. cbn [Z.eqb Pos.eqb]. reflexivity.
Qed.

Ltac sum3 := unfold pT2v_sum; cbn [para_PS para_TS para_VS para_a para_b para_c para_d para_e];
  rewrite ?powf_1; cbv beta iota zeta delta [poly_powi fold_left row_n row_i row_j fst snd pT2v_3u_IJn pT2v_3c_IJn pT2v_3x_IJn pT2v_3k_IJn]; rnum.
Ltac sub3 := unfold sub_region3_pT; boundaries; rewrite psat643; cbv zeta; unfold T3cd, T3qu, T3rx, T3jk, T3uv, T3ab, T3ef, T3wx;
    match goal with |- context [@T_saturation RArith ?p] => generalize (@T_saturation RArith p); intros ts end; rnum.
Lemma v3u p T : @pT2v_3u RArith p T = @pT2v_sum RArith p T pT2v_3u_IJn
  (mk_para (lit (23.0%dec)) (lit (650.0%dec)) (lit (0.0026%dec)) (lit (0.902%dec)) (lit (0.988%dec)) (lit (1.0%dec)) (lit (1.0%dec)) (lit (1.0%dec))).
Proof. apply (uses_sub p T). Qed.
(* T = 630 K, p = 22.3 MPa: liquid-like, subregion 3c, computed with the equation of 3u *)
Lemma hot_c : in_subregion sub_c 22.3 630 /\ @sub_region3_pT RArith 22.3 630 = sub_u /\
  14000 < @pT2v_3u RArith 22.3 630 /\ 0.0017 < @pT2v_3c RArith 22.3 630 < 0.0018.
Proof.
  assert (A : p643 < 22.3) by (pose proof p643_val; lra).
  split; [|split; [|split]].
  - left. unfold p3cd. split; [lra|]. unfold T3cd. lra.
  - sub3. cmp; try reflexivity.
  - clear A. rewrite v3u. sum3. interval.
  - clear A. unfold pT2v_3c. sum3. split; interval.
Qed.
(* T = 660 K, p = 22.3 MPa: steam, subregion 3k, computed with the equation of 3x *)
Lemma hot_k : in_subregion sub_k 22.3 660 /\ @sub_region3_pT RArith 22.3 660 = sub_x /\
  @pT2v_3x RArith 22.3 660 < -2000 /\ 0.0067 < @pT2v_3k RArith 22.3 660 < 0.0068.
Proof.
  assert (A : p643 < 22.3) by (pose proof p643_val; lra).
  split; [|split; [|split]].
  - cbn [in_subregion]. split; [lra|]. unfold T3jk. lra.
  - assert (B : T3wx 22.3 < 659) by (unfold T3wx; interval). unfold T3wx in B. sub3. cmp; try reflexivity.
  - clear A. unfold pT2v_3x. sum3. interval.
  - clear A. unfold pT2v_3k. sum3. split; interval.
Qed.

Lemma api_c fuel : @call RArith fuel PT 22.3 356.85 (from_i32 OV) = Some (@pT2v_3u RArith 22.3 630).
Proof.
  replace 630 with (356.85 + 273.15) by lra. rewrite pt_v3.
  - unfold pT2v_reg3. replace (356.85 + 273.15) with 630 by lra. now rewrite (proj1 (proj2 hot_c)).
  - lra. - lra. - unfold if97_b23. lra.
  - intros _. replace (356.85 + 273.15) with 630 by lra. unfold if97_psat. cbv zeta. interval.
  - intros [A _]. lra.
Qed.
Lemma api_k fuel : @call RArith fuel PT 22.3 386.85 (from_i32 OV) = Some (@pT2v_3x RArith 22.3 660).
Proof.
  replace 660 with (386.85 + 273.15) by lra. rewrite pt_v3.
  - unfold pT2v_reg3. replace (386.85 + 273.15) with 660 by lra. now rewrite (proj1 (proj2 hot_k)).
  - lra. - lra. - unfold if97_b23. lra.
  - intros A. lra.
  - intros [A _]. lra.
Qed.

(* 3l *)
Definition d3l : para := @mk_para RArith (lit (24.0%dec)) (lit (650.0%dec)) (lit (0.0026%dec)) (lit (0.908%dec)) (lit (0.989%dec))
  (lit (1.0%dec)) (lit (1.0%dec)) (lit (4.0%dec)).
Lemma powi_app (x y : R) t r : @poly_powi RArith x y (t ++ [r]) = @poly_powi RArith x y t + row_n r * powerRZ x (row_i r) * powerRZ y (row_j r).
Proof. unfold poly_powi. rewrite fold_left_app. reflexivity. Qed.
Lemma firstn_steps {N : Arith} (x y : num) t r steps : visited steps = seq 0 (length t) ->
  poly_powi_steps x y (t ++ [r]) steps = poly_powi x y t.
Proof.
  intros V. unfold poly_powi_steps, poly_powi. rewrite for_steps_visited, V.
  rewrite <- (fold_nth (fun value e => (value + row_n e * powi x (row_i e) * powi y (row_j e))%num) (0%Z, 0%Z, @lit N (0.0%dec)) t).
  assert (G : forall l a, (forall k, In k l -> (k < length t)%nat) -> 
   fold_left (fun value k => let e := IJn_at (t ++ [r]) k in (value + row_n e * powi x (row_i e) * powi y (row_j e))%num) l a =
   fold_left (fun acc k => (acc + row_n (nth k t (0%Z, 0%Z, @lit N (0.0%dec))) * powi x (row_i (nth k t (0%Z, 0%Z, @lit N (0.0%dec)))) * powi y (row_j (nth k t (0%Z, 0%Z, @lit N (0.0%dec)))))%num) l a).
  { clear. induction l as [|k l IH]; intros a Hl; [reflexivity|]. cbn [fold_left]. cbv zeta. 
    replace (IJn_at (t ++ [r]) k) with (nth k t (0%Z, 0%Z, @lit N (0.0%dec))) by (symmetry; apply app_nth1; apply Hl; now left).
    apply IH. intros; apply Hl; now right. }
  apply G. intros k Hk. apply in_seq in Hk. lia.
Qed.
Lemma v3l p T :
  let p1 := p / 24 - 0.908 in let t1 := T / 650 - 0.989 in
  let full := table_sum (@pT2v_3l_IJn RArith) (fun i j => powerRZ p1 i * powerRZ t1 j) in
  @pT2v_3l RArith p T = R_powf (full - 642794932373694e18 * p1 ^ 14 * t1 ^ 10) 4 * 0.0026 /\
  @pT2v_sum RArith p T pT2v_3l_IJn d3l = R_powf full 4 * 0.0026.
Proof.
  cbv zeta.
  assert (T0 : exists t0, @pT2v_3l_IJn RArith = (t0 ++ [(14%Z, 10%Z, @lit RArith (6.42794932373694e+32)%dec)])%list /\ length t0 = 42%nat).
  { exists (firstn 42 (@pT2v_3l_IJn RArith)). split; reflexivity. }
  destruct T0 as [t0 [E L]].
  assert (P : forall p T : R, @poly_powi RArith p T pT2v_3l_IJn = table_sum (@pT2v_3l_IJn RArith) (fun i j => powerRZ p i * powerRZ T j)).
  { intros x y. rewrite table_sum_tsum. rewrite poly_powi_P. reflexivity. }
  unfold pT2v_3l, pT2v_sum_steps, pT2v_sum, d3l. cbn [para_PS para_TS para_VS para_a para_b para_c para_d para_e].
  rewrite !powf_1. 
  replace (@sub RArith (@div RArith p (@lit RArith (24.0%dec))) (@lit RArith (0.908%dec))) with (p / 24 - 0.908) by (rnum; lra).
  replace (@sub RArith (@div RArith T (@lit RArith (650.0%dec))) (@lit RArith (0.989%dec))) with (T / 650 - 0.989) by (rnum; lra).
  generalize (p / 24 - 0.908) (T / 650 - 0.989). intros x y.
  split.
  - rewrite <- P. rewrite E. 
    match goal with |- context [@poly_powi_steps RArith x y ?t ?s] =>
      replace (@poly_powi_steps RArith x y t s) with (@poly_powi RArith x y t0)
        by (symmetry; apply (@firstn_steps RArith); exact (f_equal (seq 0) (eq_sym L))) end.
    match goal with |- context [@poly_powi RArith x y (t0 ++ ?r)] => rewrite (powi_app x y t0) || replace (@poly_powi RArith x y (t0 ++ r)) with
      (@poly_powi RArith x y t0 + @lit RArith (6.42794932373694e+32)%dec * powerRZ x 14 * powerRZ y 10) by (symmetry; apply powi_app) end.
     generalize (@poly_powi RArith x y t0). intros z. 
    rnum. cbn [row_n row_i row_j fst snd powerRZ]. change (Pos.to_nat 14) with 14%nat. change (Pos.to_nat 10) with 10%nat.
    rewrite (Rmult_comm _ 0.0026), (Rmult_comm _ (26/10000)). replace (26 / 10000) with 0.0026 by lra. f_equal; f_equal; lra.
  - rewrite P. rnum. rewrite (Rmult_comm _ 0.0026), (Rmult_comm _ (26/10000)). replace (26 / 10000) with 0.0026 by lra. f_equal; f_equal; lra.
Qed.
Lemma l_point : in_subregion sub_l 23.4 650 /\ @sub_region3_pT RArith 23.4 650 = sub_l /\
  0.002308 < @pT2v_3l RArith 23.4 650 < 0.00231 /\ 0.002314 < @pT2v_sum RArith 23.4 650 pT2v_3l_IJn d3l < 0.002316.
Proof.
  assert (S : @sub_region3_pT RArith 23.4 650 = sub_l).
  { unfold sub_region3_pT; boundaries; rewrite psat643; cbv zeta; unfold T3cd, T3gh; generalize p643. intros p6.
    rnum. cmp; reflexivity. }
  split; [|split; [exact S|]].
  - cbn [in_subregion]. unfold T3cd, T3gh. lra.
  - destruct (v3l 23.4 650) as [-> ->].
    unfold table_sum, pT2v_3l_IJn. rnum. unfold R_powf.
    destruct (Rlt_dec _ _) as [P|P]; [|exfalso; apply P; interval].
    destruct (Rlt_dec _ _) as [Q|Q]; [|exfalso; apply Q; interval].
    replace 4 with (INR 4) by (cbn; lra). rewrite !Rpower_pow by assumption. clear. repeat split; interval.
Qed.
Lemma refuted_c : exists p t : R, in_subregion sub_c p (t + 273.15)%R /\
  (0.0017 < @pT2v_3c RArith p (t + 273.15)%R < 0.0018)%R /\
  forall fuel, exists v, @call RArith fuel PT p t (from_i32 OV) = Some v /\ (14000 < v)%R.
Proof.
  exists 22.3, 356.85. replace (356.85 + 273.15)%R with 630%R by lra. destruct hot_c as (A & _ & B & C).
  split; [exact A|]. split; [exact C|]. intros fuel. exists (@pT2v_3u RArith 22.3 630). split; [apply api_c|exact B].
Qed.
Lemma refuted_k : exists p t : R, in_subregion sub_k p (t + 273.15)%R /\
  (0.0067 < @pT2v_3k RArith p (t + 273.15)%R < 0.0068)%R /\
  forall fuel, exists v, @call RArith fuel PT p t (from_i32 OV) = Some v /\ (v < -2000)%R.
Proof.
  exists 22.3, 386.85. replace (386.85 + 273.15)%R with 660%R by lra. destruct hot_k as (A & _ & B & C).
  split; [exact A|]. split; [exact C|]. intros fuel. exists (@pT2v_3x RArith 22.3 660). split; [apply api_k|exact B].
Qed.
