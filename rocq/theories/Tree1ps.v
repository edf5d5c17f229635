(* The cover of region 1 for a backward equation. *)
From Coq Require Import ZArith List Bool Floats Reals Lra.
From Verif Require Import Num RealInst FloatUp FloatErr RSums Taylor TaylorSum Enc1 SpecReal SatInv Bound1 Tree1.
Open Scope R_scope.

Definition tr_ps : tree := Eval vm_compute in build (within gap_ps 0x1.9999999999999p-6%float 10) out1 24 false bx0 bx1 by0 by1.
Lemma ch_ps : check (within gap_ps 0x1.9999999999999p-6%float 10) out1 tr_ps bx0 bx1 by0 by1 = true. Proof. vm_compute. reflexivity. Qed.
Lemma gap_ps_le x y : inbox x y -> reg1xy x y -> Rabs (P (map rrow tps1) (xp x) (sig2 x y) - xT y) <= 25 / 1000.
Proof.
  intros H1 H2. apply Rle_trans with (val 0x1.9999999999999p-6%float); [|flv; lra].
  apply (gap_of gap_ps (fun x y => P (map rrow tps1) (xp x) (sig2 x y) - xT y) 0x1.9999999999999p-6%float tr_ps); [eapply fin_SF; vm_compute; reflexivity| |exact ch_ps|exact H1|exact H2].
  intros. apply gap_ps_ok; assumption.
Qed.
