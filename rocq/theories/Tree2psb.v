(* The cover of region 2 for T(p,s) above 4 MPa. *)
From Coq Require Import ZArith List Bool Floats Reals Lra.
From Verif Require Import Num FloatUp FloatErr RSums Taylor TaylorSum TaylorSub Enc1 Enc2 SpecReal SatInv Bound1 Tree1 Bound2 Tree2.
Import ListNotations.
Open Scope R_scope.

Definition tr_psb : tree := Eval vm_compute in build2 (lfpsb tol25 5 6 10) ox cutx 24 false al1 ax1 ay0 ay1.
Lemma ch_psb : check (lfpsb tol25 5 6 10) ox tr_psb al1 ax1 ay0 ay1 = true. Proof. vm_compute. reflexivity. Qed.
Lemma cov_psb x y : val al1 <= x <= val ax1 -> val ay0 <= y <= val ay1 -> reg2xy x y ->
  4.5 < sv x y /\ (5.85 <= sv x y -> Rabs (gpsb x y) <= 25 / 1000) /\ (sv x y <= 5.85 -> Rabs (gpsc x y) <= 25 / 1000).
Proof.
  generalize ch_psb. apply (check_ok (lfpsb tol25 5 6 10) ox (fun x y => reg2xy x y ->
    4.5 < sv x y /\ (5.85 <= sv x y -> Rabs (gpsb x y) <= 25 / 1000) /\ (sv x y <= 5.85 -> Rabs (gpsc x y) <= 25 / 1000))).
  - intros x0 x1 y0 y1 a b L Ha Hb R. destruct (lfpsb_ok _ _ _ _ _ _ _ _ _ _ (proj1 tol25_ok) L Ha Hb R) as (A & B & C). pose proof (proj2 tol25_ok).
    split; [exact A|]. split; [intros S; specialize (B S); lra|intros S; specialize (C S); lra].
  - intros x0 x1 y0 y1 a b O Ha Hb R. destruct (ox_ok _ _ _ _ _ _ O Ha Hb R).
Qed.
