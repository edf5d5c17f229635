(* The region facts of RegionMap at the level of the public call pt. *)
From Coq Require Import ZArith List Bool Reals Floats Lra Lia.
From Verif Require Import Num Constant R4Sat Boundaries Reg4 Region RealInst FloatInst NanFacts FloatOrder RegionMap SatFloat
  Spec SpecReal Control Api RealSat.
Import ListNotations.
Open Scope num_scope.

Section Any.
Context {N : Arith}.
Lemma pt_query fuel p t : call fuel PT p t (from_i32 OR) = Some (ofZ (pT_sub_region p (t + #273.15))).
Proof. rewrite region_query. reflexivity. Qed.

Lemma pt_bad_p fuel p t : lt p (#0.000611212677444) \/ lt (#100.0) p ->
  call fuel PT p t (from_i32 OR) = Some (ofZ (-2100)).
Proof. intros H. rewrite pt_query, (region_bad_p p _ H). reflexivity. Qed.
Lemma pt_bad_T fuel p t : ~ (lt p (#0.000611212677444) \/ lt (#100.0) p) ->
  lt (t + #273.15) (#273.15) \/ lt (#2273.15) (t + #273.15) ->
  call fuel PT p t (from_i32 OR) = Some (ofZ (-2101)).
Proof. intros H1 H2. rewrite pt_query, (region_bad_T p _ H1 H2). reflexivity. Qed.

Context (O : num -> Prop) (e : num -> R) (HE : OrdEmb O e) (HK : ConstOrd O e).
Lemma pt_bad_p5 fuel p t : O p -> O (t + #273.15) ->
  lt (#1073.15) (t + #273.15) -> le (t + #273.15) (#2273.15) -> lt (#50.0) p ->
  call fuel PT p t (from_i32 OR) = Some (ofZ (-2100)).
Proof. intros. rewrite pt_query, (region_bad_p5 O e HE HK) by assumption. reflexivity. Qed.

Lemma pt_band fuel p t : let T := t + #273.15 in O p -> O T ->
  le P_MIN p -> le p (#100.0) -> le (#273.15) T -> lt T TC_WATER ->
  lt (nabs (p - p_saturation T) / p_saturation T) (#1.0e-6) ->
  call fuel PT p t (from_i32 OR) = Some (ofZ 4) /\
  forall o, ~ is_input PT o -> o <> OR -> call fuel PT p t (from_i32 o) = Some (#4.0).
Proof.
  intros T Op OT A B C D E. unfold T in *.
  assert (H : pT_sub_region p (t + #273.15) = 4%Z) by (eapply region_band; eassumption).
  split; [rewrite pt_query, H; reflexivity|].
  intros o Ho Hr. rewrite call_dispatch_auto. unfold dispatch, is_input in *.
  rewrite (proj2 (Z.eqb_neq o (id1 PT))) by tauto. rewrite (proj2 (Z.eqb_neq o (id2 PT))) by tauto.
  cbn [region_of]. rewrite Z.eqb_refl, H.
  rewrite (proj2 (Z.eqb_neq o OR)) by assumption.
  assert (Hp : forall o, prop_of fuel PT 4 p t o = Some (#4.0)).
  { intros o'. cbn [prop_of]. cbv zeta. 
    change (Z.eqb 4 1) with false. change (Z.eqb 4 2) with false. change (Z.eqb 4 3) with false. change (Z.eqb 4 4) with true.
    cbv iota. unfold pT_reg4.
    replace (t + #273.15 =? TC_WATER) with false; [reflexivity|].
    destruct HK. unfold lt in D. rewrite (e_lt _ _ HE) in D by assumption. apply Rlt_b_inv in D.
    rewrite (e_eq _ _ HE) by assumption. unfold Req_b. destruct (Req_EM_T (e (t + #273.15)) (e TC_WATER)); [exfalso; lra|reflexivity]. }
  destruct (Z.eqb o OX); [|apply Hp].
  change (Z.eqb 4 1) with false. change (Z.eqb 4 2) with false. change (Z.eqb 4 3) with false. change (Z.eqb 4 4) with true. change (Z.eqb 4 5) with false.
  cbn [orb]. apply Hp.
Qed.

Lemma hot_region fuel f t y : In f [TV; TH; TS] -> O (t + #273.15) ->
  lt (#863.15) (t + #273.15) -> le (t + #273.15) (#1073.15) ->
  call fuel f t y (from_i32 OR) = Some (ofZ (-9999)) \/
  (f = TS /\ call fuel f t y (from_i32 OR) = Some (ofZ (-2102))).
Proof.
  intros Hf OT A B. rewrite region_query. cbn [In] in Hf.
  destruct Hf as [<-|[<-|[<-|[]]]]; cbn [region_of].
  - left. rewrite (tv_hot O e HE HK t y OT A B). reflexivity.
  - left. rewrite (th_hot O e HE HK fuel t y OT A B). reflexivity.
  - destruct ((S_MAX <? y) || (y <? S_MIN)) eqn:E.
    + right. split; [reflexivity|].
      assert (H : ts_sub_region t y = INVALID_S); [|rewrite H; reflexivity].
      cbv beta delta [ts_sub_region]. cbv zeta. rewrite E.
      assert (R : (t + #273.15 <? #273.15) || (#2273.15 <? t + #273.15) = false); [|rewrite R; reflexivity].
      destruct HK. unfold lt in A. unfold le in B. rewrite (e_lt _ _ HE) in A by assumption. rewrite (e_le _ _ HE) in B by assumption.
      apply Rlt_b_inv in A. apply Rle_b_inv in B.
      apply orb_false_iff; split; rewrite (e_lt _ _ HE) by assumption; apply Rlt_b_false; lra.
    + left. rewrite (ts_hot O e HE HK t y OT A B); [reflexivity|].
      unfold lt. intros [H|H]; rewrite H in E; [discriminate E|rewrite orb_true_r in E; discriminate E].
Qed.
End Any.

(* ---- binary64 ---- *)
Section Float.
Variable L : Libm.
Hypothesis HL : powi4_ok L.
Let N := FArith L.
Local Existing Instance N.

Lemma float_comparable (p T : float) : ordered p -> ordered T -> @le N (#273.15) T -> @le N T (#2273.15) ->
  @comparable N ordered p T.
Proof.
  intros Op OT A B. split; [exact Op|split; [exact OT|split]].
  - apply psat_number; assumption.
  - apply b23_number; assumption.
Qed.
Lemma float_region_range ps b23 (p T : float) r : ordered T -> @if97_region N ps b23 p T r -> @le N (#273.15) T /\ @le N T (#2273.15).
Proof.
  pose proof (float_ordemb L) as HE. destruct (float_constord L).
  intros OT. unfold le, lt, N. rewrite !(e_le _ _ HE) by assumption.
  intros [A B C|A B C|A B C|A B|A B C|A B C]; unfold le, lt, N in A, B;
  (first [rewrite (e_le _ _ HE) in A by assumption; apply Rle_b_inv in A
         |rewrite (e_lt _ _ HE) in A by assumption; apply Rlt_b_inv in A]);
  rewrite (e_le _ _ HE) in B by assumption; apply Rle_b_inv in B;
  (split; apply Rle_b_true; lra).
Qed.
End Float.

Lemma float_pt_region L : powi4_ok L -> forall fuel (p t : float) r,
  let N := FArith L in let T := @add N t (#273.15) in
  ordered p -> ordered T -> @lt N (#0.000611212677444) p -> @le N p (#100.0) -> @off_band N p T ->
  @if97_region N (@p_saturation N T) (@B23_T2p N T) p T r ->
  @call N fuel PT p t (from_i32 OR) = Some (float_of_Z r).
Proof.
  intros HL fuel p t r N T Op OT A B C HR.
  destruct (float_region_range L _ _ p T r OT HR) as [D E].
  rewrite pt_query. fold T.
  rewrite (@region_map N ordered emb (float_ordemb L) (float_constord L) p T r (float_comparable L HL p T Op OT D E) A B C HR).
  reflexivity.
Qed.
Lemma float_pt_total L : powi4_ok L -> forall fuel (p t : float),
  let N := FArith L in let T := @add N t (#273.15) in
  ordered p -> ordered T -> @lt N (#0.000611212677444) p -> @le N p (#100.0) ->
  @le N (#273.15) T -> @le N T (#2273.15) -> (@lt N (#1073.15) T -> @le N p (#50.0)) ->
  exists r, (1 <= r <= 5)%Z /\ @call N fuel PT p t (from_i32 OR) = Some (float_of_Z r).
Proof.
  intros HL fuel p t N T Op OT A B C D E. exists (@pT_sub_region N p T). split; [|rewrite pt_query; reflexivity].
  exact (@region_total N ordered emb (float_ordemb L) (float_constord L) p T (float_comparable L HL p T Op OT C D) A B C D E).
Qed.
Lemma float_pt_hole L : powi4_ok L -> forall fuel (p t : float),
  let N := FArith L in let T := @add N t (#273.15) in
  ordered T -> p = @P_MIN N -> @le N (#273.15) T -> @le N T (#623.15) -> @lt N p (@p_saturation N T) -> @off_band N p T ->
  @call N fuel PT p t (from_i32 OR) = Some (float_of_Z (-9999)).
Proof.
  intros HL fuel p t N T OT Ep A B C D. rewrite pt_query. fold T.
  rewrite (@region_hole N ordered emb (float_ordemb L) (float_constord L) p T); [reflexivity|..]; try assumption.
  - subst p. vm_compute. reflexivity.
  - apply psat_number; assumption.
  - subst p. vm_compute. reflexivity.
Qed.

(* ---- reals ---- *)
Open Scope R_scope.
Lemma Rle_b_iff x y : Rle_b x y = true <-> x <= y.
Proof. split; [apply Rle_b_inv|apply Rle_b_true]. Qed.
Lemma Rlt_b_iff x y : Rlt_b x y = true <-> x < y.
Proof. split; [apply Rlt_b_inv|apply Rlt_b_true]. Qed.
Lemma real_comparable p T : @comparable RArith (fun _ => True) p T.
Proof. repeat split. Qed.

Definition off_band_R (p T : R) : Prop :=
  (273.15 <= T < 647.096 -> 1e-6 <= Rabs (p - if97_psat T) / if97_psat T) /\ ~ (T = 647.096 /\ p = 22.064).

Lemma off_band_real p T : off_band_R p T -> @off_band RArith p T.
Proof.
  intros [A B]. split.
  - intros H. apply andb_true_iff in H. destruct H as [H1 H2].
    unfold leb, ltb, RArith in H1, H2. apply Rle_b_inv in H1. apply Rlt_b_inv in H2.
    assert (HT : 273.15 <= T < 647.096) by (unfold TC_WATER in *; rlits_in H1; rlits_in H2; lra).
    rewrite (psat_real T) by lra. rnum. apply Rlt_b_false.
    eapply Rle_trans; [|apply (A HT)]. lra.
  - unfold eqb, RArith, Req_b, TC_WATER, PC_WATER. rlits.
    destruct (Req_EM_T _ _) as [E1|]; [|reflexivity]. destruct (Req_EM_T _ _) as [E2|]; [|reflexivity].
    exfalso. apply B. split; lra.
Qed.

Lemma real_pt_region fuel p t r : let T := t + 273.15 in
  0.000611212677444 < p <= 100 -> off_band_R p T -> if97_region_R p T r ->
  @call RArith fuel PT p t (from_i32 OR) = Some (IZR r).
Proof.
  intros T Hp Hb HR. rewrite pt_query.
  assert (ET : @add RArith t (@lit RArith 273.15) = T).
  { unfold T. rnum. lra. }
  rewrite ET.
  assert (Hg : (T <= 647.096 -> 273.15 <= T -> @p_saturation RArith T = if97_psat T) /\ @B23_T2p RArith T = if97_b23 T).
  { split; [intros; apply psat_real; lra|apply b23_real]. }
  destruct Hg as [Hs H23].
  rewrite (@region_map RArith (fun _ => True) (fun x => x) real_ordemb real_constord p T r (real_comparable p T)).
  - reflexivity.
  - apply Rlt_b_true. unfold P_MIN. rlits. lra.
  - apply Rle_b_true. rlits. lra.
  - apply off_band_real. exact Hb.
  - rewrite H23. 
    destruct HR as [(-> & A & B)|[(-> & A & B)|[(-> & A & B)|[(-> & A)|[(-> & A & B)|(-> & A & B)]]]]];
    [apply if97_1|apply if97_2a|apply if97_2b|apply if97_2c|apply if97_3|apply if97_5];
    unfold le, lt; first [apply Rle_b_true|apply Rlt_b_true]; rewrite ?Hs by lra; try rlits; lra.
Qed.
Lemma real_region_exists p T : 273.15 <= T <= 2273.15 -> (1073.15 < T -> p <= 50) ->
  exists r, if97_region_R p T r.
Proof.
  intros A B. unfold if97_region_R.
  destruct (Rle_dec T 623.15).
  { destruct (Rle_dec (if97_psat T) p); [exists 1%Z; left; repeat split; lra|exists 2%Z; right; left; repeat split; lra]. }
  destruct (Rle_dec T 863.15).
  { destruct (Rle_dec p (if97_b23 T)); [exists 2%Z; do 2 right; left; repeat split; lra|exists 3%Z; do 4 right; left; repeat split; lra]. }
  destruct (Rle_dec T 1073.15).
  { exists 2%Z. do 3 right; left; repeat split; lra. }
  exists 5%Z. do 5 right. repeat split; lra.
Qed.

Lemma pt_hole_refuted : let F := FArith RefLibm in exists (p t : float), p = @P_MIN F /\
  @le F (#273.15) (@add F t (#273.15)) /\ @le F (@add F t (#273.15)) (#1073.15) /\
  ~ (exists r, (1 <= r <= 5)%Z /\ @call F 1 PT p t (from_i32 OR) = Some (float_of_Z r)).
Proof.
  exists (@P_MIN (FArith RefLibm)), 100%float. split; [reflexivity|].
  split; [vm_compute; reflexivity|]. split; [vm_compute; reflexivity|].
  intros (r & Hr & E).
  assert (E2 : @call (FArith RefLibm) 1 PT (@P_MIN (FArith RefLibm)) 100%float (from_i32 OR) = Some (float_of_Z (-9999))) by (vm_compute; reflexivity).
  rewrite E2 in E. injection E as E. 
  assert (H : (r = 1 \/ r = 2 \/ r = 3 \/ r = 4 \/ r = 5)%Z) by lia.
  apply (f_equal Prim2SF) in E.
  destruct H as [->|[->|[->|[->| ->]]]]; vm_compute in E; discriminate E.
Qed.
Lemma hot_refuted : let F := FArith RefLibm in exists (p t v h s : float),
  @call F 1 PT p t (from_i32 OR) = Some (float_of_Z 2) /\
  @call F 1 PT p t (from_i32 OV) = Some v /\ @call F 1 PT p t (from_i32 OH) = Some h /\
  @call F 1 PT p t (from_i32 OS) = Some s /\
  @call F 1 TV t v (from_i32 OR) = Some (float_of_Z (-9999)) /\
  @call F 1 TH t h (from_i32 OR) = Some (float_of_Z (-9999)) /\
  @call F 1 TS t s (from_i32 OR) = Some (float_of_Z (-9999)).
Proof.
  exists 1%float, 700%float. do 3 eexists.
  split; [vm_compute; reflexivity|]. 
  split; [vm_compute; reflexivity|]. split; [vm_compute; reflexivity|]. split; [vm_compute; reflexivity|].
  split; [vm_compute; reflexivity|]. split; vm_compute; reflexivity.
Qed.
