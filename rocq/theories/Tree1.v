(* The covers of region 1 by boxes on which the enclosures decide. *)
From Coq Require Import ZArith List Bool Floats Reals.
From Verif Require Import Num FloatUp FloatErr RSums Taylor TaylorSum Enc1 SpecReal SatInv Bound1.
Open Scope R_scope.

Definition tr_x : tree := Eval vm_compute in build (leaf1 10 t1_x) out1 14 false bx0 bx1 by0 by1.
Definition tr_xx : tree := Eval vm_compute in build (leaf1 10 t1_xx) out1 14 false bx0 bx1 by0 by1.
Definition tr_yy : tree := Eval vm_compute in build (leaf1 10 t1_yy) out1 14 false bx0 bx1 by0 by1.
Definition tr_det : tree := Eval vm_compute in build (det1 10) out1 14 false bx0 bx1 by0 by1.
Lemma ch_x : check (leaf1 10 t1_x) out1 tr_x bx0 bx1 by0 by1 = true. Proof. vm_compute. reflexivity. Qed.
Lemma ch_xx : check (leaf1 10 t1_xx) out1 tr_xx bx0 bx1 by0 by1 = true. Proof. vm_compute. reflexivity. Qed.
Lemma ch_yy : check (leaf1 10 t1_yy) out1 tr_yy bx0 bx1 by0 by1 = true. Proof. vm_compute. reflexivity. Qed.
Lemma ch_det : check (det1 10) out1 tr_det bx0 bx1 by0 by1 = true. Proof. vm_compute. reflexivity. Qed.

Notation Tb := (map rrow tab1).
Definition inbox (x y : R) : Prop := val bx0 <= x <= val bx1 /\ val by0 <= y <= val by1.
Lemma sign_of (t : gtab float) (F : R -> R -> R) tr :
  (forall x0 x1 y0 y1 x y, boxok x0 x1 y0 y1 = true -> val x0 <= x <= val x1 -> val y0 <= y <= val y1 ->
     ok (upos x0 x1 x) (upos y0 y1 y) (psum 10 (px1 10 (varu x0 x1)) (py1 10 (varv y0 y1)) t) (F x y)) ->
  check (leaf1 10 t) out1 tr bx0 bx1 by0 by1 = true -> forall x y, inbox x y -> reg1xy x y -> F x y < 0.
Proof.
  intros HF H x y [Hx Hy]. revert Hx Hy. revert H.
  apply (check_ok (leaf1 10 t) out1 (fun x y => reg1xy x y -> F x y < 0)).
  - intros x0 x1 y0 y1 a b L Ha Hb _. apply andb_true_iff in L as [L1 L2].
    exact (lneg_ok _ _ (Hu _ _ _ _ _ L1 Ha) (Hv _ _ _ _ _ L1 Hb) _ _ (HF _ _ _ _ _ _ L1 Ha Hb) L2).
  - intros x0 x1 y0 y1 a b O Ha Hb R. destruct (out1_ok _ _ _ _ _ _ O Ha Hb R).
Qed.
Lemma neg_x x y : inbox x y -> reg1xy x y -> Px Tb x y < 0.
Proof. apply (sign_of t1_x (Px Tb) tr_x); [|exact ch_x]. intros. apply S_x; assumption. Qed.
Lemma neg_xx x y : inbox x y -> reg1xy x y -> Pxx Tb x y < 0.
Proof. apply (sign_of t1_xx (Pxx Tb) tr_xx); [|exact ch_xx]. intros. apply S_xx; assumption. Qed.
Lemma neg_yy x y : inbox x y -> reg1xy x y -> Pyy Tb x y < 0.
Proof. apply (sign_of t1_yy (Pyy Tb) tr_yy); [|exact ch_yy]. intros. apply S_yy; assumption. Qed.
Lemma pos_det x y : inbox x y -> reg1xy x y ->
  0 < (y + 1222 / 1000) * (y + 1222 / 1000) * Pyy Tb x y * Pxx Tb x y
      - (Px Tb x y - (y + 1222 / 1000) * Pxy Tb x y) * (Px Tb x y - (y + 1222 / 1000) * Pxy Tb x y).
Proof.
  intros [Hx Hy]. revert Hx Hy. generalize ch_det.
  apply (check_ok (det1 10) out1 (fun x y => reg1xy x y -> 0 < (y + 1222 / 1000) * (y + 1222 / 1000) * Pyy Tb x y * Pxx Tb x y
      - (Px Tb x y - (y + 1222 / 1000) * Pxy Tb x y) * (Px Tb x y - (y + 1222 / 1000) * Pxy Tb x y))).
  - intros x0 x1 y0 y1 a b L Ha Hb _. unfold det1 in L. cbv zeta in L. apply andb_true_iff in L as [L1 L2].
    exact (lpos_ok _ _ (Hu _ _ _ _ _ L1 Ha) (Hv _ _ _ _ _ L1 Hb) _ _ (det_ok _ _ _ _ _ _ L1 Ha Hb 10) L2).
  - intros x0 x1 y0 y1 a b O Ha Hb R. destruct (out1_ok _ _ _ _ _ _ O Ha Hb R).
Qed.

(* the gap of a backward equation *)
Lemma gap_of g (F : R -> R -> R) tol tr : fin tol ->
  (forall x0 x1 y0 y1 x y, boxok x0 x1 y0 y1 = true -> val x0 <= x <= val x1 -> val y0 <= y <= val y1 ->
     ok (upos x0 x1 x) (upos y0 y1 y) (g 10%nat x0 x1 y0 y1) (F x y)) ->
  check (within g tol 10) out1 tr bx0 bx1 by0 by1 = true -> forall x y, inbox x y -> reg1xy x y -> Rabs (F x y) <= val tol.
Proof.
  intros Ft HF H x y [Hx Hy]. revert Hx Hy. revert H.
  apply (check_ok (within g tol 10) out1 (fun x y => reg1xy x y -> Rabs (F x y) <= val tol)).
  - intros x0 x1 y0 y1 a b L Ha Hb _. apply andb_true_iff in L as [L1 L2].
    exact (absle_ok _ _ (Hu _ _ _ _ _ L1 Ha) (Hv _ _ _ _ _ L1 Hb) _ _ _ (HF _ _ _ _ _ _ L1 Ha Hb) Ft L2).
  - intros x0 x1 y0 y1 a b O Ha Hb R. destruct (out1_ok _ _ _ _ _ _ O Ha Hb R).
Qed.
