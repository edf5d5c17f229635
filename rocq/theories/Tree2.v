(* The covers of region 2 by boxes on which the enclosures decide, and what a leaf shows. *)
From Coq Require Import ZArith List Bool Floats Reals Lra.
From Verif Require Import Num FloatUp FloatErr RSums Taylor TaylorSum TaylorSub Enc1 Enc2 SpecReal SatInv Bound1 Tree1 Bound2.
Import ListNotations.
Open Scope R_scope.

Definition tr_Z : tree := Eval vm_compute in build2 (lfZ 10) ox cutx 24 false ax0 ax1 ay0 ay1.
Definition tr_K : tree := Eval vm_compute in build2 (lfK 10) ox cutx 24 false ax0 ax1 ay0 ay1.
Definition tr_C : tree := Eval vm_compute in build2 (lfC 10) ox cutx 24 false ax0 ax1 ay0 ay1.
Definition tr_D : tree := Eval vm_compute in build2 (lfD 10) ox cutx 24 false ax0 ax1 ay0 ay1.
Lemma ch_Z : check (lfZ 10) ox tr_Z ax0 ax1 ay0 ay1 = true. Proof. vm_compute. reflexivity. Qed.
Lemma ch_K : check (lfK 10) ox tr_K ax0 ax1 ay0 ay1 = true. Proof. vm_compute. reflexivity. Qed.
Lemma ch_C : check (lfC 10) ox tr_C ax0 ax1 ay0 ay1 = true. Proof. vm_compute. reflexivity. Qed.
Lemma ch_D : check (lfD 10) ox tr_D ax0 ax1 ay0 ay1 = true. Proof. vm_compute. reflexivity. Qed.

Section Box.
Variables (x0 x1 y0 y1 : float) (x y : R).
Hypothesis B : boxnn x0 x1 y0 y1 = true.
Hypothesis Hx : val x0 <= x <= val x1.
Hypothesis Hy : val y0 <= y <= val y1.
Let u := upos x0 x1 x. Let v := upos y0 y1 y.
Lemma Hu2 : Rabs u <= 1.
Proof. destruct (boxnn_ok _ _ _ _ B) as (_ & L & _ & _). apply upos_le; assumption. Qed.
Lemma Hv2 : Rabs v <= 1.
Proof. destruct (boxnn_ok _ _ _ _ B) as (_ & _ & _ & L). apply upos_le; assumption. Qed.
Lemma y_pos2 : 0 < y.
Proof. destruct (boxnn_ok _ _ _ _ B) as (_ & _ & L & _). lra. Qed.
Lemma okX2 : ok u v (varu x0 x1) x.
Proof. destruct (boxnn_ok _ _ _ _ B) as (_ & L & _ & _). apply ok_varu; [exact L|exact Hx|reflexivity]. Qed.
Lemma okY2 : ok u v (varv y0 y1) y.
Proof. destruct (boxnn_ok _ _ _ _ B) as (_ & _ & _ & L). apply ok_varv; [exact L|exact Hy|reflexivity]. Qed.
End Box.
Definition inbox2 (x y : R) : Prop := val ax0 <= x <= val ax1 /\ val ay0 <= y <= val ay1.
Lemma pos_Z x y : inbox2 x y -> reg2xy x y -> 0 < vZ x y.
Proof.
  intros [Hx Hy]. revert Hx Hy. generalize ch_Z. apply (check_ok (lfZ 10) ox (fun x y => reg2xy x y -> 0 < vZ x y)).
  - intros x0 x1 y0 y1 a b L Ha Hb [Pa _]. apply andb_true_iff in L as [L1 L2].
    refine (lpos_ok _ _ (Hu2 _ _ _ _ _ L1 Ha) (Hv2 _ _ _ _ _ L1 Hb) _ _ (tZ_ok _ _ (Hu2 _ _ _ _ _ L1 Ha) (Hv2 _ _ _ _ _ L1 Hb) 10 _ _ _ _ (okX2 _ _ _ _ _ _ L1 Ha) (okY2 _ _ _ _ _ _ L1 Hb) _) L2). lra.
  - intros x0 x1 y0 y1 a b O Ha Hb R. destruct (ox_ok _ _ _ _ _ _ O Ha Hb R).
Qed.
Lemma pos_K x y : inbox2 x y -> reg2xy x y -> 0 < vK x y.
Proof.
  intros [Hx Hy]. revert Hx Hy. generalize ch_K. apply (check_ok (lfK 10) ox (fun x y => reg2xy x y -> 0 < vK x y)).
  - intros x0 x1 y0 y1 a b L Ha Hb [Pa _]. apply andb_true_iff in L as [L1 L2].
    refine (lpos_ok _ _ (Hu2 _ _ _ _ _ L1 Ha) (Hv2 _ _ _ _ _ L1 Hb) _ _ (tK_ok _ _ (Hu2 _ _ _ _ _ L1 Ha) (Hv2 _ _ _ _ _ L1 Hb) 10 _ _ _ _ (okX2 _ _ _ _ _ _ L1 Ha) (okY2 _ _ _ _ _ _ L1 Hb) _) L2). lra.
  - intros x0 x1 y0 y1 a b O Ha Hb R. destruct (ox_ok _ _ _ _ _ _ O Ha Hb R).
Qed.
Lemma neg_C x y : inbox2 x y -> reg2xy x y -> vC x y < 0.
Proof.
  intros [Hx Hy]. revert Hx Hy. generalize ch_C. apply (check_ok (lfC 10) ox (fun x y => reg2xy x y -> vC x y < 0)).
  - intros x0 x1 y0 y1 a b L Ha Hb [Pa _]. apply andb_true_iff in L as [L1 L2].
    exact (lneg_ok _ _ (Hu2 _ _ _ _ _ L1 Ha) (Hv2 _ _ _ _ _ L1 Hb) _ _ (tC_ok _ _ (Hu2 _ _ _ _ _ L1 Ha) (Hv2 _ _ _ _ _ L1 Hb) 10 _ _ _ _ (okX2 _ _ _ _ _ _ L1 Ha) (okY2 _ _ _ _ _ _ L1 Hb) (y_pos2 _ _ _ _ _ L1 Hb)) L2).
  - intros x0 x1 y0 y1 a b O Ha Hb R. destruct (ox_ok _ _ _ _ _ _ O Ha Hb R).
Qed.
Lemma neg_D x y : inbox2 x y -> reg2xy x y -> vD x y < 0.
Proof.
  intros [Hx Hy]. revert Hx Hy. generalize ch_D. apply (check_ok (lfD 10) ox (fun x y => reg2xy x y -> vD x y < 0)).
  - intros x0 x1 y0 y1 a b L Ha Hb [Pa _]. apply andb_true_iff in L as [L1 L2].
    refine (lneg_ok _ _ (Hu2 _ _ _ _ _ L1 Ha) (Hv2 _ _ _ _ _ L1 Hb) _ _ (tD_ok _ _ (Hu2 _ _ _ _ _ L1 Ha) (Hv2 _ _ _ _ _ L1 Hb) 10 _ _ _ _ (okX2 _ _ _ _ _ _ L1 Ha) (okY2 _ _ _ _ _ _ L1 Hb) (y_pos2 _ _ _ _ _ L1 Hb) _) L2). lra.
  - intros x0 x1 y0 y1 a b O Ha Hb R. destruct (ox_ok _ _ _ _ _ _ O Ha Hb R).
Qed.

(* ---- the leaves of the backward equations ---- *)
Definition hv (x y : R) : R := 24922404 / 100000 * vH x y.
Definition gpha (x y : R) : R := P (map rrow tpha) x (12461202 / 100000000 * vH x y + -21 / 10) - yT y.
Definition gphb (x y : R) : R := P (map rrow tphb) (1 / 1 * x + -2 / 1) (12461202 / 100000000 * vH x y + -26 / 10) - yT y.
Definition gphc (x y : R) : R := P (map rrow tphc) (1 / 1 * x + 25 / 1) (12461202 / 100000000 * vH x y + -18 / 10) - yT y.
Definition hdv (x y : R) : R := 24922404 / 100000 * vH x y + -26526571908428 / 10000000000.
Definition selv (x y : R) : R := x - 45257578905948 / 10000000000000 - 12809002730136 / 100000000000000000 * (hdv x y * hdv x y).
Definition gpsa (q y : R) : R := P (map rrow tpsa) q (461526 / 2000000 * vS (q * q * (q * q)) y + -2 / 1) - yT y.
Definition gpsb (x y : R) : R := P (map rrow tpsb) x (-4615260 / 7853000 * vS x y + 10 / 1) - yT y.
Definition gpsc (x y : R) : R := P (map rrow tpsc) x (-4615260 / 29251000 * vS x y + 2 / 1) - yT y.
Definition sv (x y : R) : R := 461526 / 1000000 * vS x y.

Lemma lfpha_ok tol k' n k x0 x1 y0 y1 x y : fin tol -> lfpha tol k' n k x0 x1 y0 y1 = true ->
  val x0 <= x <= val x1 -> val y0 <= y <= val y1 -> reg2xy x y -> 2100 < hv x y /\ Rabs (gpha x y) <= val tol.
Proof.
  intros Ft H Hx Hy Rg. unfold lfpha in H. destruct (boxnn x0 x1 y0 y1) eqn:B; [|discriminate]. cbv zeta in H.
  destruct (boxnn_ok _ _ _ _ B) as (B1 & B2 & B3 & B4). pose proof (Hu2 _ _ _ _ _ B Hx) as Hu. pose proof (Hv2 _ _ _ _ _ B Hy) as Hv. pose proof (y_pos2 _ _ _ _ _ B Hy) as Yp.
  pose proof (okX2 _ _ _ _ _ y B Hx) as OX. pose proof (okY2 _ _ _ _ x _ B Hy) as OY. pose proof (hh_ok _ _ Hu Hv k _ _ _ _ OX OY Yp) as OH.
  destruct (lpos _) eqn:E in H; [|discriminate]. split.
  - assert (L := lin_one _ _ Hu Hv k kH 24922404 100000 _ _ (-2100)%float (-2100) 1 OH ltac:(vm_compute; reflexivity) ltac:(vm_compute; reflexivity)).
    pose proof (lpos_ok _ _ Hu Hv _ _ L E) as Lp. unfold hv. lra.
  - revert H. apply (inner_ok k' (test1 tol) (fun l => l) ox x y [gpha x y]); try assumption.
    + intros u v l Hu' Hv' F T. destruct l as [|g [|g' l]]; try discriminate T. inversion F; subst. exact (absle_ok _ _ Hu' Hv' _ _ _ H2 Ft T).
    + intros a0 a1 b0 b1 O Ha Hb. destruct (ox_ok _ _ _ _ _ _ O Ha Hb Rg).
    + constructor; [|constructor]. exact (gap_pha_ok _ _ Hu Hv k _ _ _ _ OX OY _ _ OH).
Qed.
Lemma lfphb_ok tol k' n k x0 x1 y0 y1 x y : fin tol -> lfphb tol k' n k x0 x1 y0 y1 = true ->
  val x0 <= x <= val x1 -> val y0 <= y <= val y1 -> reg2xy x y ->
  2100 < hv x y /\ (selv x y <= 0 -> Rabs (gphb x y) <= val tol) /\ (hdv x y <= 0 \/ 0 <= selv x y -> Rabs (gphc x y) <= val tol).
Proof.
  intros Ft H Hx Hy Rg. unfold lfphb in H. destruct (boxnn x0 x1 y0 y1) eqn:B; [|discriminate]. cbv zeta in H.
  destruct (boxnn_ok _ _ _ _ B) as (B1 & B2 & B3 & B4). pose proof (Hu2 _ _ _ _ _ B Hx) as Hu. pose proof (Hv2 _ _ _ _ _ B Hy) as Hv. pose proof (y_pos2 _ _ _ _ _ B Hy) as Yp.
  pose proof (okX2 _ _ _ _ _ y B Hx) as OX. pose proof (okY2 _ _ _ _ x _ B Hy) as OY. pose proof (hh_ok _ _ Hu Hv k _ _ _ _ OX OY Yp) as OH.
  destruct (lpos (tlin k [(kH, _); ((-2100)%float, _)])) eqn:E in H; [|discriminate]. split.
  - assert (L := lin_one _ _ Hu Hv k kH 24922404 100000 _ _ (-2100)%float (-2100) 1 OH ltac:(vm_compute; reflexivity) ltac:(vm_compute; reflexivity)).
    pose proof (lpos_ok _ _ Hu Hv _ _ L E) as Lp. unfold hv. lra.
  - assert (OD := lin_one _ _ Hu Hv k kH 24922404 100000 _ _ (-2652.6571908428)%float (-26526571908428) 10000000000 OH ltac:(vm_compute; reflexivity) ltac:(vm_compute; reflexivity)).
    fold (hdv x y) in OD. pose proof (tsel_ok _ _ Hu Hv k _ _ OX _ _ OD) as OS. fold (selv x y) in OS.
    revert H. apply (inner_ok k' (test2 tol) pick2 ox x y [selv x y; hdv x y; gphb x y; gphc x y]); try assumption.
    + intros u v l Hu' Hv' F T. destruct l as [|s [|d [|gb [|gc [|g' l]]]]]; try discriminate T.
      inversion F as [|? ? ? ? F1 G1]; subst. inversion G1 as [|? ? ? ? F2 G2]; subst. inversion G2 as [|? ? ? ? F3 G3]; subst. inversion G3 as [|? ? ? ? F4 G4]; subst.
      apply andb_true_iff in T as [T1 T2]. split.
      * intros S. destruct (lpos s) eqn:Es; [pose proof (lpos_ok _ _ Hu' Hv' _ _ F1 Es); lra|]. exact (absle_ok _ _ Hu' Hv' _ _ _ F3 Ft T1).
      * intros S. destruct (absle gc tol) eqn:Ec; [exact (absle_ok _ _ Hu' Hv' _ _ _ F4 Ft Ec)|]. apply andb_true_iff in T2 as [T2 T3].
        pose proof (lneg_ok _ _ Hu' Hv' _ _ F1 T2). pose proof (lpos_ok _ _ Hu' Hv' _ _ F2 T3). lra.
    + intros a0 a1 b0 b1 O Ha Hb. destruct (ox_ok _ _ _ _ _ _ O Ha Hb Rg).
    + constructor; [exact OS|]. constructor; [exact OD|]. constructor; [|constructor; [|constructor]].
      * match goal with |- ok _ _ (if ?c then _ else _) _ => destruct c end; [apply ok_bad|]. exact (gap_phb_ok _ _ Hu Hv k _ _ _ _ OX OY _ _ OH).
      * match goal with |- ok _ _ (if ?c then _ else _) _ => destruct c end; [apply ok_bad|]. refine (gap_phc_ok _ _ Hu Hv k _ _ _ _ OX OY _ _ OH _). lra.
Qed.
Lemma ln4 q : 0 < q -> ln (q * q * (q * q)) = 4 / 1 * ln q.
Proof. intros H. rewrite !ln_mult; try (repeat apply Rmult_lt_0_compat; assumption). field. Qed.
Lemma lfpsa_ok tol k' n k x0 x1 y0 y1 q y : fin tol -> lfpsa tol k' n k x0 x1 y0 y1 = true -> 0 < q ->
  val x0 <= q <= val x1 -> val y0 <= y <= val y1 -> reg2xy (q * q * (q * q)) y -> 4.5 < sv (q * q * (q * q)) y /\ Rabs (gpsa q y) <= val tol.
Proof.
  intros Ft H Pq Hx Hy Rg. unfold lfpsa in H. destruct (boxnn x0 x1 y0 y1) eqn:B; [|discriminate]. cbv zeta in H.
  destruct (boxnn_ok _ _ _ _ B) as (B1 & B2 & B3 & B4). pose proof (Hu2 _ _ _ _ _ B Hx) as Hu. pose proof (Hv2 _ _ _ _ _ B Hy) as Hv. pose proof (y_pos2 _ _ _ _ _ B Hy) as Yp.
  pose proof (okX2 _ _ _ _ _ y B Hx) as OQ. pose proof (okY2 _ _ _ _ q _ B Hy) as OY.
  assert (OQ2 := ok_mul _ _ Hu Hv k _ _ _ _ OQ OQ). assert (OX := ok_mul _ _ Hu Hv k _ _ _ _ OQ2 OQ2).
  assert (OL : ok (upos x0 x1 q) (upos y0 y1 y) (tlin k [(4%float, tln k (varu x0 x1))]) (ln (q * q * (q * q)))).
  { rewrite ln4 by exact Pq. apply (ok_lin1 _ _ Hu Hv); [exact (tln_ok _ _ k _ _ Hu Hv Pq OQ)|apply (ratok_ok 4 1); vm_compute; reflexivity]. }
  pose proof (ss_ok _ _ Hu Hv k _ _ _ _ OX OY Yp _ OL) as OS.
  destruct (lpos _) eqn:E in H; [|discriminate].
  assert (S45 : 4.5 < sv (q * q * (q * q)) y).
  { assert (L := lin_one _ _ Hu Hv k kS 461526 1000000 _ _ (-4.5)%float (-45) 10 OS ltac:(vm_compute; reflexivity) ltac:(vm_compute; reflexivity)).
    pose proof (lpos_ok _ _ Hu Hv _ _ L E) as Lp. unfold sv. lra. }
  split; [exact S45|].
  revert H. apply (inner_ok k' (test1 tol) (fun l => l) oq q y [gpsa q y]); try assumption.
  + intros u v l Hu' Hv' F T. destruct l as [|g [|g' l]]; try discriminate T. inversion F; subst. exact (absle_ok _ _ Hu' Hv' _ _ _ H2 Ft T).
  + intros a0 a1 b0 b1 O Ha Hb. destruct (oq_ok _ _ _ _ _ _ O Ha Hb Rg).
  + constructor; [|constructor]. refine (gap_psa_ok _ _ Hu Hv k _ _ _ _ OQ OY _ _ OS _ _); [lra|unfold sv in S45; lra].
Qed.
Lemma lfpsb_ok tol k' n k x0 x1 y0 y1 x y : fin tol -> lfpsb tol k' n k x0 x1 y0 y1 = true ->
  val x0 <= x <= val x1 -> val y0 <= y <= val y1 -> reg2xy x y ->
  4.5 < sv x y /\ (5.85 <= sv x y -> Rabs (gpsb x y) <= val tol) /\ (sv x y <= 5.85 -> Rabs (gpsc x y) <= val tol).
Proof.
  intros Ft H Hx Hy Rg. unfold lfpsb in H. destruct (boxnn x0 x1 y0 y1) eqn:B; [|discriminate]. cbv zeta in H. pose proof (proj1 Rg) as Px.
  destruct (boxnn_ok _ _ _ _ B) as (B1 & B2 & B3 & B4). pose proof (Hu2 _ _ _ _ _ B Hx) as Hu. pose proof (Hv2 _ _ _ _ _ B Hy) as Hv. pose proof (y_pos2 _ _ _ _ _ B Hy) as Yp.
  pose proof (okX2 _ _ _ _ _ y B Hx) as OX. pose proof (okY2 _ _ _ _ x _ B Hy) as OY.
  pose proof (ss_ok _ _ Hu Hv k _ _ _ _ OX OY Yp _ (tln_ok _ _ k _ _ Hu Hv Px OX)) as OH.
  destruct (lpos (tlin k [(kS, _); ((-4.5)%float, _)])) eqn:E in H; [|discriminate]. split.
  - assert (L := lin_one _ _ Hu Hv k kS 461526 1000000 _ _ (-4.5)%float (-45) 10 OH ltac:(vm_compute; reflexivity) ltac:(vm_compute; reflexivity)).
    pose proof (lpos_ok _ _ Hu Hv _ _ L E) as Lp. unfold sv. lra.
  - assert (OD := lin_one _ _ Hu Hv k kS 461526 1000000 _ _ (-5.85)%float (-585) 100 OH ltac:(vm_compute; reflexivity) ltac:(vm_compute; reflexivity)).
    fold (sv x y) in OD.
    revert H. apply (inner_ok k' (test3 tol) pick3 ox x y [sv x y + -585 / 100; gpsb x y; gpsc x y]); try assumption.
    + intros u v l Hu' Hv' F T. destruct l as [|s [|gb [|gc [|g' l]]]]; try discriminate T.
      inversion F as [|? ? ? ? F1 G1]; subst. inversion G1 as [|? ? ? ? F2 G2]; subst. inversion G2 as [|? ? ? ? F3 G3]; subst.
      apply andb_true_iff in T as [T1 T2]. split.
      * intros S. destruct (lneg s) eqn:Es; [pose proof (lneg_ok _ _ Hu' Hv' _ _ F1 Es); lra|]. exact (absle_ok _ _ Hu' Hv' _ _ _ F2 Ft T1).
      * intros S. destruct (absle gc tol) eqn:Ec; [exact (absle_ok _ _ Hu' Hv' _ _ _ F3 Ft Ec)|].
        pose proof (lpos_ok _ _ Hu' Hv' _ _ F1 T2). lra.
    + intros a0 a1 b0 b1 O Ha Hb. destruct (ox_ok _ _ _ _ _ _ O Ha Hb Rg).
    + constructor; [exact OD|]. constructor; [|constructor; [|constructor]].
      * match goal with |- ok _ _ (if ?c then _ else _) _ => destruct c end; [apply ok_bad|]. refine (gap_psb_ok _ _ Hu Hv k _ _ _ _ OX OY _ _ OH _). lra.
      * match goal with |- ok _ _ (if ?c then _ else _) _ => destruct c end; [apply ok_bad|]. refine (gap_psc_ok _ _ Hu Hv k _ _ _ _ OX OY _ _ OH _). lra.
Qed.
Definition tol25 : float := 0x1.9999999999999p-6%float.
Lemma tol25_ok : fin tol25 /\ val tol25 <= 25 / 1000.
Proof. split; [eapply fin_SF; vm_compute; reflexivity|]. unfold tol25. flv. lra. Qed.
