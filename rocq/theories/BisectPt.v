(* a wet state accepted by the bisection of hx *)
From Coq Require Import ZArith List Bool Reals Lra.
From Verif Require Import Num Constant Api RealInst SpecWet SatApi Lever LeverReal SpecSolver WetGap.
Import ListNotations.
Open Scope R_scope.
Lemma accepted_100 : wet_T (100 + 273.15) /\ @tx RArith 100 0 OH <> @tx RArith 100 1 OH /\
  Rabs (quality_error OH (@tx RArith 100 (1/2)%R OH) (1/2) 100) < 1e-5.
Proof.
  assert (W : wet_T (100 + 273.15)) by (unfold wet_T; lra).
  assert (D : TX 100 0 OH <> TX 100 1 OH) by (destruct (tx_gap 100 ltac:(lra)) as (H & _); lra).
  split; [exact W|]. split; [exact D|].
  rewrite (tx_line 100 (1/2) OH W ltac:(lra) ltac:(cbn; auto)). unfold quality_error. rewrite quality by exact D.
  replace (1/2 - 1/2) with 0 by lra. rewrite Rabs_R0. lra.
Qed.
