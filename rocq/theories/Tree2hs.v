(* The covers of region 2 for p(h,s). *)
From Coq Require Import ZArith List Bool Floats Reals Lra.
From Verif Require Import Num FloatUp FloatErr RSums Taylor TaylorSum TaylorSub Enc1 Enc2 Enc2hs SpecReal SatInv Bound1 Tree1 Bound2 Tree2 Bound2hs.
Import ListNotations.
Open Scope R_scope.

Definition tr_hs1 : tree := Eval vm_compute in build2 (lfhs tolhs 5 6 10) oq cutq 24 false aq0 am1 ay0 ay1.
Definition tr_hs2 : tree := Eval vm_compute in build2 (lfhs tolhs 5 6 10) oq cutq 24 false am1 am2 ay0 ay1.
Lemma ch_hs1 : check (lfhs tolhs 5 6 10) oq tr_hs1 aq0 am1 ay0 ay1 = true. Proof. vm_compute. reflexivity. Qed.
Lemma ch_hs2 : check (lfhs tolhs 5 6 10) oq tr_hs2 am1 am2 ay0 ay1 = true. Proof. vm_compute. reflexivity. Qed.
Lemma leaf_hs x0 x1 y0 y1 q y : lfhs tolhs 5 6 10 x0 x1 y0 y1 = true -> val x0 <= q <= val x1 -> val y0 <= y <= val y1 -> 0 < q -> reg2xy (xq q) y -> hs_ok q y.
Proof. intros L Ha Hb Pa R. pose proof (lfhs_ok _ _ _ _ _ _ _ _ _ _ (proj1 tolhs_ok) L Pa Ha Hb R) as H. rewrite (proj2 tolhs_ok) in H. exact H. Qed.
Lemma out_hs x0 x1 y0 y1 q y : oq x0 x1 y0 y1 = true -> val x0 <= q <= val x1 -> val y0 <= y <= val y1 -> 0 < q -> reg2xy (xq q) y -> hs_ok q y.
Proof. intros O Ha Hb Pa R. destruct (oq_ok _ _ _ _ _ _ O Ha Hb R). Qed.
Lemma cov_hs q y : val aq0 <= q <= val am2 -> val ay0 <= y <= val ay1 -> 0 < q -> reg2xy (xq q) y -> hs_ok q y.
Proof.
  intros [Q1 Q2] Y. destruct (Rle_lt_dec q (val am1)) as [L|L].
  - pose proof (check_ok _ _ _ leaf_hs out_hs _ _ _ _ _ q y ch_hs1) as H. apply H; [split; assumption|exact Y].
  - pose proof (check_ok _ _ _ leaf_hs out_hs _ _ _ _ _ q y ch_hs2) as H. apply H; [split; [left|]; assumption|exact Y].
Qed.
