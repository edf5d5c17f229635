(* The cover of region 2 for T(p,s) up to 4 MPa. *)
From Coq Require Import ZArith List Bool Floats Reals Lra.
From Verif Require Import Num FloatUp FloatErr RSums Taylor TaylorSum TaylorSub Enc1 Enc2 SpecReal SatInv Bound1 Tree1 Bound2 Tree2.
Import ListNotations.
Open Scope R_scope.

Definition tr_psa : tree := Eval vm_compute in build2 (lfpsa tol25 5 6 10) oq cutq 24 false aq0 aq1 ay0 ay1.
Lemma ch_psa : check (lfpsa tol25 5 6 10) oq tr_psa aq0 aq1 ay0 ay1 = true. Proof. vm_compute. reflexivity. Qed.
Lemma cov_psa q y : val aq0 <= q <= val aq1 -> val ay0 <= y <= val ay1 -> 0 < q -> reg2xy (q * q * (q * q)) y -> 4.5 < sv (q * q * (q * q)) y /\ Rabs (gpsa q y) <= 25 / 1000.
Proof.
  generalize ch_psa. apply (check_ok (lfpsa tol25 5 6 10) oq (fun q y => 0 < q -> reg2xy (q * q * (q * q)) y -> 4.5 < sv (q * q * (q * q)) y /\ Rabs (gpsa q y) <= 25 / 1000)).
  - intros x0 x1 y0 y1 a b L Ha Hb Pa R. destruct (lfpsa_ok _ _ _ _ _ _ _ _ _ _ (proj1 tol25_ok) L Pa Ha Hb R) as [A B]. split; [exact A|]. pose proof (proj2 tol25_ok). lra.
  - intros x0 x1 y0 y1 a b O Ha Hb Pa R. destruct (oq_ok _ _ _ _ _ _ O Ha Hb R).
Qed.
