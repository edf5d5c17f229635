(* The saturation line and the B23 boundary of the model over R are the formulas of
   the release. *)
From Coq Require Import ZArith List Bool Reals Lra Lia.
From Verif Require Import Num Constant R4Sat Boundaries Region RealInst RegionMap Spec SpecReal Control Api.
Import ListNotations.
Open Scope R_scope.

(* decimals of the source as quotients of integers *)
Ltac rlits := cbv beta iota zeta delta [lit ofZ RArith R_of_dec dm de Z.pow_pos Pos.iter Z.mul Pos.mul Pos.add Pos.succ].
Ltac rlits_in H := cbv beta iota zeta delta [lit ofZ RArith R_of_dec dm de Z.pow_pos Pos.iter Z.mul Pos.mul Pos.add Pos.succ] in H.
Ltac rnum := cbv beta iota zeta delta [lit ofZ add sub mul div opp nabs nsqrt powi powf nexp nln ltb leb eqb num RArith R_of_dec dm de Z.pow_pos Pos.iter Z.mul Pos.mul Pos.add Pos.succ].

Lemma psat_real T : 273.15 <= T <= 647.096 -> @p_saturation RArith T = if97_psat T.
Proof.
  intros HT. unfold p_saturation, T_MAX4, region4_sat_pT_n. cbv zeta. cbn [nth].
  rewrite (proj2 (orb_false_iff _ _)).
  2:{ split; rnum; apply Rlt_b_false; lra. }
  rnum. unfold if97_psat. cbv zeta. cbn [powerRZ Pos.to_nat Pos.iter_op]. 
  change (Pos.to_nat 4) with 4%nat. f_equal.
  set (th := T + -23855557567849 / 100000000000000 / (T - 65017534844798 / 100000000000)).
  replace (T + -0.23855557567849 / (T - 650.17534844798)) with th by (unfold th; f_equal; f_equal; lra).
  f_equal; [|f_equal; [|f_equal]]; nra.
Qed.
Lemma b23_real T : @B23_T2p RArith T = if97_b23 T.
Proof. unfold B23_T2p, B23_T2p_n23, if97_b23. cbn [nth]. rnum. lra. Qed.
