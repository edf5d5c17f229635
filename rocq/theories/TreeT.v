(* The sign of dh/dp of region 1 at constant temperature: positive up to 509 K, negative up to the
   saturation pressure from 523.15 K on. *)
From Coq Require Import ZArith List Bool Floats Reals Lra.
From Verif Require Import Num FloatUp FloatErr RSums Taylor TaylorSum TaylorSub Enc1 SpecReal SatInv Bound1 Tree1.
Import ListNotations.
Open Scope R_scope.

Definition hneg (k : nat) (x0 x1 y0 y1 : float) : bool := boxok x0 x1 y0 y1 && lpos (psum k (px1 k (varu x0 x1)) (py1 k (varv y0 y1)) t1_xy).
Definition hpos (k : nat) (x0 x1 y0 y1 : float) : bool := boxok x0 x1 y0 y1 && lneg (psum k (px1 k (varu x0 x1)) (py1 k (varv y0 y1)) t1_xy).
Definition no (x0 x1 y0 y1 : float) : bool := false.
(* up to 545 K, 600 K, 623.15 K *)
Definition tr_a : tree := Eval vm_compute in build (hneg 6) no 14 false 6.75 7.09765625 1.3203125 1.427734375.
Definition tr_b : tree := Eval vm_compute in build (hneg 6) no 14 false 6.34765625 7.09765625 1.0859375 1.322265625.
Definition tr_c : tree := Eval vm_compute in build (hneg 6) no 14 false 6.09375 7.09765625 1.001953125 1.08984375.
Definition tr_d : tree := Eval vm_compute in build (hpos 6) out1 14 false bx0 bx1 1.5 by1.
Lemma ch_a : check (hneg 6) no tr_a 6.75 7.09765625 1.3203125 1.427734375 = true. Proof. vm_compute. reflexivity. Qed.
Lemma ch_b : check (hneg 6) no tr_b 6.34765625 7.09765625 1.0859375 1.322265625 = true. Proof. vm_compute. reflexivity. Qed.
Lemma ch_c : check (hneg 6) no tr_c 6.09375 7.09765625 1.001953125 1.08984375 = true. Proof. vm_compute. reflexivity. Qed.
Lemma ch_d : check (hpos 6) out1 tr_d bx0 bx1 1.5 by1 = true. Proof. vm_compute. reflexivity. Qed.
Lemma pos_of tr a b c d x y : check (hneg 6) no tr a b c d = true -> val a <= x <= val b -> val c <= y <= val d -> 0 < Pxy Tb x y.
Proof.
  intros C. revert x y C. intros x y. apply (check_ok (hneg 6) no (fun x y => 0 < Pxy Tb x y)).
  - intros x0 x1 y0 y1 u v L Ha Hb. unfold hneg in L. apply andb_true_iff in L as [L1 L2].
    refine (lpos_ok _ _ (Hu _ _ _ _ _ L1 Ha) (Hv _ _ _ _ _ L1 Hb) _ _ _ L2). apply S_xy; assumption.
  - intros x0 x1 y0 y1 u v O. discriminate.
Qed.
Lemma pos_h x y : 7.1 - x <= 0.344 /\ 1.3211 <= y <= 1.4274 \/ 7.1 - x <= 0.747 /\ 1.08799 <= y <= 1.32113 \/ 7.1 - x <= 1.0000001 /\ 1.00217 <= y <= 1.08801 -> x <= 7.097 -> 0 < Pxy Tb x y.
Proof.
  intros [H|[H|H]] H1; [refine (pos_of _ _ _ _ _ x y ch_a _ _)|refine (pos_of _ _ _ _ _ x y ch_b _ _)|refine (pos_of _ _ _ _ _ x y ch_c _ _)]; flv; lra.
Qed.
Lemma neg_h x y : val bx0 <= x <= val bx1 -> 1.5 <= y <= val by1 -> reg1xy x y -> Pxy Tb x y < 0.
Proof.
  intros Hx Hy. assert (Hy' : val 1.5%float <= y <= val by1) by (revert Hy; flv; lra). clear Hy. revert Hx Hy'. generalize ch_d.
  apply (check_ok (hpos 6) out1 (fun x y => reg1xy x y -> Pxy Tb x y < 0)).
  - intros x0 x1 y0 y1 a b L Ha Hb _. unfold hpos in L. apply andb_true_iff in L as [L1 L2].
    refine (lneg_ok _ _ (Hu _ _ _ _ _ L1 Ha) (Hv _ _ _ _ _ L1 Hb) _ _ _ L2). apply S_xy; assumption.
  - intros x0 x1 y0 y1 a b O Ha Hb R. destruct (out1_ok _ _ _ _ _ _ O Ha Hb R).
Qed.
