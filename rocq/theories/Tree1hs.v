(* The cover of region 1 for a backward equation. *)
From Coq Require Import ZArith List Bool Floats Reals Lra.
From Verif Require Import Num RealInst FloatUp FloatErr RSums Taylor TaylorSum Enc1 SpecReal SatInv Bound1 Tree1.
Open Scope R_scope.

Definition tr_hs : tree := Eval vm_compute in build (within gap_hs 0x1.eb851eb851eb8p-7%float 10) out1 24 false bx0 bx1 by0 by1.
Lemma ch_hs : check (within gap_hs 0x1.eb851eb851eb8p-7%float 10) out1 tr_hs bx0 bx1 by0 by1 = true. Proof. vm_compute. reflexivity. Qed.
Lemma gap_hs_le x y : inbox x y -> reg1xy x y -> Rabs (100 * P (map rrow ths1) (eta34 x y) (sig76 x y) - xp x) <= 15 / 1000.
Proof.
  intros H1 H2. apply Rle_trans with (val 0x1.eb851eb851eb8p-7%float); [|flv; lra].
  apply (gap_of gap_hs (fun x y => 100 * P (map rrow ths1) (eta34 x y) (sig76 x y) - xp x) 0x1.eb851eb851eb8p-7%float tr_hs); [eapply fin_SF; vm_compute; reflexivity| |exact ch_hs|exact H1|exact H2].
  intros. apply gap_hs_ok; assumption.
Qed.
