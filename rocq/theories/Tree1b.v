(* The covers of region 1 for an upper bound of the enthalpy and of the entropy. *)
From Coq Require Import ZArith List Bool Floats Reals Lra.
From Verif Require Import Num RealInst FloatUp FloatErr RSums Taylor TaylorSum TaylorSub Enc1 SpecReal SatInv Bound1 Tree1.
Import ListNotations.
Open Scope R_scope.

Definition gap_h1 (k : nat) (x0 x1 y0 y1 : float) : tm :=
  tlin k [(639.675036%float, psum k (px1 k (varu x0 x1)) (py1 k (varv y0 y1)) t1_y); ((-1800)%float, one)].
Definition gap_s1 (k : nat) (x0 x1 y0 y1 : float) : tm :=
  tlin k [(0.461526%float, ent1 k (px1 k (varu x0 x1)) (py1 k (varv y0 y1)) (varv y0 y1)); ((-4.2)%float, one)].
Definition below (g : nat -> float -> float -> float -> float -> tm) (k : nat) (x0 x1 y0 y1 : float) : bool :=
  boxok x0 x1 y0 y1 && lneg (g k x0 x1 y0 y1).
Definition tr_h1 : tree := Eval vm_compute in build (below gap_h1 8) out1 24 false bx0 bx1 by0 by1.
Definition tr_s1 : tree := Eval vm_compute in build (below gap_s1 8) out1 24 false bx0 bx1 by0 by1.
Lemma ch_h1 : check (below gap_h1 8) out1 tr_h1 bx0 bx1 by0 by1 = true. Proof. vm_compute. reflexivity. Qed.
Lemma ch_s1 : check (below gap_s1 8) out1 tr_s1 bx0 bx1 by0 by1 = true. Proof. vm_compute. reflexivity. Qed.
Definition h1v (x y : R) : R := 639675036 / 1000000 * Py Tb x y.
Definition s1v (x y : R) : R := 461526 / 1000000 * ((y + 1222 / 1000) * Py Tb x y - P Tb x y).
Lemma h1_below x y : inbox x y -> reg1xy x y -> h1v x y < 1800.
Proof.
  intros [Hx Hy]. revert Hx Hy. generalize ch_h1. apply (check_ok (below gap_h1 8) out1 (fun x y => reg1xy x y -> h1v x y < 1800)).
  - intros x0 x1 y0 y1 a b L Ha Hb _. apply andb_true_iff in L as [L1 L2].
    assert (O : ok (upos x0 x1 a) (upos y0 y1 b) (gap_h1 8 x0 x1 y0 y1) (h1v a b + -1800 / 1 * 1)).
    { apply (ok_lin2 _ _ (Hu _ _ _ _ _ L1 Ha) (Hv _ _ _ _ _ L1 Hb)); [apply S_y; assumption|exact (ok_tone _ _)|apply (ratok_ok 639675036 1000000)|apply (ratok_ok (-1800) 1)]; vm_compute; reflexivity. }
    pose proof (lneg_ok _ _ (Hu _ _ _ _ _ L1 Ha) (Hv _ _ _ _ _ L1 Hb) _ _ O L2). lra.
  - intros x0 x1 y0 y1 a b O Ha Hb R. destruct (out1_ok _ _ _ _ _ _ O Ha Hb R).
Qed.
Lemma s1_below x y : inbox x y -> reg1xy x y -> s1v x y < 4.2.
Proof.
  intros [Hx Hy]. revert Hx Hy. generalize ch_s1. apply (check_ok (below gap_s1 8) out1 (fun x y => reg1xy x y -> s1v x y < 4.2)).
  - intros x0 x1 y0 y1 a b L Ha Hb _. apply andb_true_iff in L as [L1 L2].
    assert (O : ok (upos x0 x1 a) (upos y0 y1 b) (gap_s1 8 x0 x1 y0 y1) (s1v a b + -42 / 10 * 1)).
    { apply (ok_lin2 _ _ (Hu _ _ _ _ _ L1 Ha) (Hv _ _ _ _ _ L1 Hb)); [apply ent_ok; assumption|exact (ok_tone _ _)|apply (ratok_ok 461526 1000000)|apply (ratok_ok (-42) 10)]; vm_compute; reflexivity. }
    pose proof (lneg_ok _ _ (Hu _ _ _ _ _ L1 Ha) (Hv _ _ _ _ _ L1 Hb) _ _ O L2). lra.
  - intros x0 x1 y0 y1 a b O Ha Hb R. destruct (out1_ok _ _ _ _ _ _ O Ha Hb R).
Qed.
