(* The cover of region 2 for T(p,h) above 4 MPa. *)
From Coq Require Import ZArith List Bool Floats Reals Lra.
From Verif Require Import Num FloatUp FloatErr RSums Taylor TaylorSum TaylorSub Enc1 Enc2 SpecReal SatInv Bound1 Tree1 Bound2 Tree2.
Import ListNotations.
Open Scope R_scope.

Definition tr_phb : tree := Eval vm_compute in build2 (lfphb tol25 5 8 10) ox cutx 24 false al1 ax1 ay0 ay1.
Lemma ch_phb : check (lfphb tol25 5 8 10) ox tr_phb al1 ax1 ay0 ay1 = true. Proof. vm_compute. reflexivity. Qed.
Lemma cov_phb x y : val al1 <= x <= val ax1 -> val ay0 <= y <= val ay1 -> reg2xy x y ->
  2100 < hv x y /\ (selv x y <= 0 -> Rabs (gphb x y) <= 25 / 1000) /\ (hdv x y <= 0 \/ 0 <= selv x y -> Rabs (gphc x y) <= 25 / 1000).
Proof.
  generalize ch_phb. apply (check_ok (lfphb tol25 5 8 10) ox (fun x y => reg2xy x y ->
    2100 < hv x y /\ (selv x y <= 0 -> Rabs (gphb x y) <= 25 / 1000) /\ (hdv x y <= 0 \/ 0 <= selv x y -> Rabs (gphc x y) <= 25 / 1000))).
  - intros x0 x1 y0 y1 a b L Ha Hb R. destruct (lfphb_ok _ _ _ _ _ _ _ _ _ _ (proj1 tol25_ok) L Ha Hb R) as (A & B & C). pose proof (proj2 tol25_ok).
    split; [exact A|]. split; [intros S; specialize (B S); lra|intros S; specialize (C S); lra].
  - intros x0 x1 y0 y1 a b O Ha Hb R. destruct (ox_ok _ _ _ _ _ _ O Ha Hb R).
Qed.
