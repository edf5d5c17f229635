(* The cover of region 2 for T(p,h) up to 4 MPa. *)
From Coq Require Import ZArith List Bool Floats Reals Lra.
From Verif Require Import Num FloatUp FloatErr RSums Taylor TaylorSum TaylorSub Enc1 Enc2 SpecReal SatInv Bound1 Tree1 Bound2 Tree2.
Import ListNotations.
Open Scope R_scope.

Definition tr_pha : tree := Eval vm_compute in build2 (lfpha tol25 4 6 8) ox cutx 24 false al0 al1 ay0 ay1.
Lemma ch_pha : check (lfpha tol25 4 6 8) ox tr_pha al0 al1 ay0 ay1 = true. Proof. vm_compute. reflexivity. Qed.
Lemma cov_pha x y : val al0 <= x <= val al1 -> val ay0 <= y <= val ay1 -> reg2xy x y -> 2100 < hv x y /\ Rabs (gpha x y) <= 25 / 1000.
Proof.
  generalize ch_pha. apply (check_ok (lfpha tol25 4 6 8) ox (fun x y => reg2xy x y -> 2100 < hv x y /\ Rabs (gpha x y) <= 25 / 1000)).
  - intros x0 x1 y0 y1 a b L Ha Hb R. destruct (lfpha_ok _ _ _ _ _ _ _ _ _ _ (proj1 tol25_ok) L Ha Hb R) as [A B]. split; [exact A|]. pose proof (proj2 tol25_ok). lra.
  - intros x0 x1 y0 y1 a b O Ha Hb R. destruct (ox_ok _ _ _ _ _ _ O Ha Hb R).
Qed.
