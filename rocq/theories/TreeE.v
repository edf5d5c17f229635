(* The sign of the expansion: dv/dT in region 1 from 5 C on, dh/dp at constant temperature in region 2. *)
From Coq Require Import ZArith List Bool Floats Reals Lra.
From Verif Require Import Num FloatUp FloatErr RSums Taylor TaylorSum TaylorSub Enc1 Enc2 SpecReal SatInv Bound1 Tree1 Bound2 Tree2.
Import ListNotations.
Open Scope R_scope.

(* region 1, up to y of 278.145 K *)
Definition ey1 := 0x1.e168400000000p+1%float.
Definition exp1 (k : nat) (x0 x1 y0 y1 : float) : bool :=
  let px := px1 k (varu x0 x1) in
  let py := py1 k (varv y0 y1) in
  boxok x0 x1 y0 y1 && lneg (tsub (psum k px py t1_x) (tmul k (tau1 k (varv y0 y1)) (psum k px py t1_xy))).
Definition tr_e1 : tree := Eval vm_compute in build (exp1 10) out1 14 false bx0 bx1 by0 ey1.
Lemma ch_e1 : check (exp1 10) out1 tr_e1 bx0 bx1 by0 ey1 = true. Proof. vm_compute. reflexivity. Qed.
Lemma neg_e1 x y : val bx0 <= x <= val bx1 -> val by0 <= y <= val ey1 -> reg1xy x y -> Px Tb x y - (y + 1222 / 1000) * Pxy Tb x y < 0.
Proof.
  intros Hx Hy. revert Hx Hy. generalize ch_e1.
  apply (check_ok (exp1 10) out1 (fun x y => reg1xy x y -> Px Tb x y - (y + 1222 / 1000) * Pxy Tb x y < 0)).
  - intros x0 x1 y0 y1 a b L Ha Hb _. unfold exp1 in L. cbv zeta in L. apply andb_true_iff in L as [L1 L2].
    refine (lneg_ok _ _ (Hu _ _ _ _ _ L1 Ha) (Hv _ _ _ _ _ L1 Hb) _ _ _ L2).
    apply (ok_sub _ _ (Hu _ _ _ _ _ L1 Ha) (Hv _ _ _ _ _ L1 Hb)); [apply S_x; assumption|].
    apply (ok_mul _ _ (Hu _ _ _ _ _ L1 Ha) (Hv _ _ _ _ _ L1 Hb)); [apply tau_ok|apply S_xy]; assumption.
  - intros x0 x1 y0 y1 a b O Ha Hb R. destruct (out1_ok _ _ _ _ _ _ O Ha Hb R).
Qed.

(* region 2 *)
Definition cxe : list (Z * Z) := [(1, 1); (2, 1); (3, 1); (4, 1); (5, 1); (6, 1); (7, 1); (8, 1); (9, 6); (15, 2); (17, 2); (19, 1); (20, 1); (21, 1); (22, 1)]%Z.
Definition pxe (k : nat) (X : tm) : pw := chain k cxe [(1%Z, X); (0%Z, cst 1%float)].
Definition t2_pxy : gtab float := Eval vm_compute in tfl (dyD (dxD tab2)).
Definition exp2 (k : nat) (x0 x1 y0 y1 : float) : bool :=
  boxnn x0 x1 y0 y1 && lneg (psum k (pxe k (varu x0 x1)) (py2 k (varv y0 y1)) t2_pxy).
Definition tr_e2 : tree := Eval vm_compute in build2 (exp2 10) ox cutx 24 false ax0 ax1 ay0 ay1.
Lemma ch_e2 : check (exp2 10) ox tr_e2 ax0 ax1 ay0 ay1 = true. Proof. vm_compute. reflexivity. Qed.
Lemma neg_e2 x y : inbox2 x y -> reg2xy x y -> Pxy Tb2 x y < 0.
Proof.
  intros [Hx Hy]. revert Hx Hy. generalize ch_e2. apply (check_ok (exp2 10) ox (fun x y => reg2xy x y -> Pxy Tb2 x y < 0)).
  - intros x0 x1 y0 y1 a b L Ha Hb [Pa _]. apply andb_true_iff in L as [L1 L2].
    refine (lneg_ok _ _ (Hu2 _ _ _ _ _ L1 Ha) (Hv2 _ _ _ _ _ L1 Hb) _ _ _ L2). rewrite <- dxy_ok. change t2_pxy with (tfl (dyD (dxD tab2))).
    apply (psum_ok _ _ (Hu2 _ _ _ _ _ L1 Ha) (Hv2 _ _ _ _ _ L1 Hb) 10); [vm_compute; reflexivity| |].
    + unfold pxe. apply (chain_nn _ _ (Hu2 _ _ _ _ _ L1 Ha) (Hv2 _ _ _ _ _ L1 Hb) 10 a cxe); [vm_compute; reflexivity|]. apply pwok_base. exact (okX2 _ _ _ _ _ _ L1 Ha).
    + apply py2_ok; [exact (Hu2 _ _ _ _ _ L1 Ha)|exact (Hv2 _ _ _ _ _ L1 Hb)|exact (okY2 _ _ _ _ _ _ L1 Hb)].
  - intros x0 x1 y0 y1 a b O Ha Hb R. destruct (ox_ok _ _ _ _ _ _ O Ha Hb R).
Qed.
