(* binary64: the saturation pressure and the B23 pressure are numbers (not NaN) on
   their whole temperature ranges; rounding errors are tracked exactly. *)
From Coq Require Import ZArith List Bool Reals Floats Lra Lia.
From Interval Require Import Tactic.
From Verif Require Import Num Constant R4Sat Boundaries RealInst FloatInst NanFacts FloatOrder FloatErr RegionMap.
Import ListNotations.
Open Scope R_scope.

Ltac fconst c F V :=
  let sf := eval vm_compute in (Prim2SF c) in
  lazymatch sf with
  | S754_finite ?s ?m ?e =>
      assert (F : fin c) by (apply (fin_SF c s m e); vm_compute; reflexivity);
      assert (V := val_SF c s m e ltac:(vm_compute; reflexivity)); cbv iota in V
  | S754_zero ?s =>
      assert (F : fin c) by (apply (fin_zero c s); vm_compute; reflexivity);
      assert (V := val_zero c s ltac:(vm_compute; reflexivity))
  end.


Ltac smallv := match goal with |- small ?z =>
  apply (small_le z 1000000000000000000000000000000); [interval | apply IZR_le; vm_compute; discriminate ] end.
(* [opn H d e F V]: name the error terms of one operation *)
Ltac opn H F V := let d := fresh "d" in let e := fresh "e" in
  destruct H as (d & e & [? ?] & F & V).

Section S.
Variable L : Libm.
Local Definition n (k : nat) : float := nth k (@region4_sat_pT_n (FArith L)) (float_of_dec 0.0).
Definition del_of (T : float) : float := (T + n 8 / (T - n 9))%float.
Definition aco_of (x : float) : float := (x * (x + n 0) + n 1)%float.
Definition bco_of (x : float) : float := (x * (n 2 * x + n 3) + n 4)%float.
Definition cco_of (x : float) : float := (x * (n 5 * x + n 6) + n 7)%float.
Definition root_of (T : float) : float :=
  let x := del_of T in
  ((float_of_dec 2.0 * cco_of x) /
   ((- bco_of x) + PrimFloat.sqrt (bco_of x * bco_of x - (float_of_dec 4.0 * aco_of x) * cco_of x)))%float.

Lemma psat_is_root T : PrimFloat.ltb T (float_of_dec 273.15) = false -> PrimFloat.ltb (float_of_dec 647.096) T = false ->
  @p_saturation (FArith L) T = l_powi L (root_of T) 4.
Proof. intros A B. unfold p_saturation, T_MAX4. cbn [ltb lit FArith]. rewrite A, B. reflexivity. Qed.

Lemma root_fin T : PrimFloat.leb (float_of_dec 273.15) T = true -> PrimFloat.leb T (float_of_dec 647.096) = true ->
  fin (root_of T) /\ 0 <= val (root_of T) <= 29/10.
Proof.
  intros A B.
  fconst (float_of_dec 273.15) Fl Vl. fconst (float_of_dec 647.096) Fh Vh.
  assert (FT : fin T) by (apply (fin_between T _ _ Fl Fh A B)).
  rewrite leb_val in A, B by assumption. apply Rle_b_inv in A, B.
  assert (A' : 273 <= val T) by (eapply Rle_trans; [|exact A]; rewrite Vl; interval).
  assert (B' : val T <= 64710/100) by (eapply Rle_trans; [exact B|]; rewrite Vh; interval).
  clear A B Vl Vh Fl Fh.
  fconst (n 0) F0 V0. fconst (n 1) F1 V1. fconst (n 2) F2 V2. fconst (n 3) F3 V3. fconst (n 4) F4 V4.
  fconst (n 5) F5 V5. fconst (n 6) F6 V6. fconst (n 7) F7 V7. fconst (n 8) F8 V8. fconst (n 9) F9 V9.
  fconst (float_of_dec 2.0) Fa Va. fconst (float_of_dec 4.0) Fb Vb.
  unfold root_of; cbv zeta.
  assert (D : fin (del_of T) /\ 273 <= val (del_of T) <= 6473/10).
  { unfold del_of. opn (xsub T (n 9) FT F9 ltac:(rewrite V9; smallv)) G1 W1.
    assert (N1 : val (T - n 9)%float <> 0) by (rewrite W1, V9; apply Rlt_not_eq; interval).
    opn (xdiv (n 8) (T - n 9)%float F8 G1 N1 ltac:(rewrite W1, V9, V8; smallv)) G2 W2.
    opn (xadd T _ FT G2 ltac:(rewrite W2, W1, V9, V8; smallv)) G3 W3.
    split; [exact G3|]. rewrite W3, W2, W1, V9, V8. split; interval. }
  destruct D as [Fx Bx]. revert Fx Bx. generalize (del_of T). intros x Fx Bx. clear T FT A' B' F8 V8 F9 V9.
  unfold aco_of, bco_of, cco_of.
  opn (xadd x (n 0) Fx F0 ltac:(rewrite V0; smallv)) G1 W1. rewrite V0 in W1.
  opn (xmul x _ Fx G1 ltac:(rewrite W1; smallv)) G2 W2. rewrite W1 in W2.
  opn (xadd _ (n 1) G2 F1 ltac:(rewrite W2, V1; smallv)) GA WA. rewrite W2, V1 in WA. clear W1 W2 G1 G2.
  opn (xmul (n 2) x F2 Fx ltac:(rewrite V2; smallv)) G1 W1. rewrite V2 in W1.
  opn (xadd _ (n 3) G1 F3 ltac:(rewrite W1, V3; smallv)) G2 W2. rewrite W1, V3 in W2.
  opn (xmul x _ Fx G2 ltac:(rewrite W2; smallv)) G3 W3. rewrite W2 in W3.
  opn (xadd _ (n 4) G3 F4 ltac:(rewrite W3, V4; smallv)) GB WB. rewrite W3, V4 in WB. clear W1 W2 W3 G1 G2 G3.
  opn (xmul (n 5) x F5 Fx ltac:(rewrite V5; smallv)) G1 W1. rewrite V5 in W1.
  opn (xadd _ (n 6) G1 F6 ltac:(rewrite W1, V6; smallv)) G2 W2. rewrite W1, V6 in W2.
  opn (xmul x _ Fx G2 ltac:(rewrite W2; smallv)) G3 W3. rewrite W2 in W3.
  opn (xadd _ (n 7) G3 F7 ltac:(rewrite W3, V7; smallv)) GC WC. rewrite W3, V7 in WC. clear W1 W2 W3 G1 G2 G3.
  revert GA WA GB WB GC WC.
  generalize (x * (x + n 0) + n 1)%float. generalize (x * (n 2 * x + n 3) + n 4)%float. generalize (x * (n 5 * x + n 6) + n 7)%float.
  intros c b a GA WA GB WB GC WC.
  assert (Bb : -2700000 <= val b <= -1100000) by (rewrite WB; split; interval with (i_bisect (val x), i_prec 60)).
  assert (Bc : 100000 <= val c <= 3600000) by (rewrite WC; split; interval with (i_bisect (val x), i_prec 60)).
  opn (xmul b b GB GB ltac:(rewrite WB; smallv)) G1 W1.
  opn (xmul (float_of_dec 4.0) a Fb GA ltac:(rewrite WA, Vb; smallv)) G2 W2. rewrite Vb in W2.
  opn (xmul _ c G2 GC ltac:(rewrite W2, WA, WC; smallv)) G3 W3. rewrite W2 in W3.
  opn (xsub _ _ G1 G3 ltac:(rewrite W3, W1, WA, WB, WC; smallv)) G4 W4. rewrite W1, W3 in W4.
  assert (P4 : 100000000000 <= val (b * b - float_of_dec 4.0 * a * c)%float <= 3000000000000).
  { rewrite W4, WA, WB, WC. split; interval with (i_bisect (val x), i_prec 60). }
  opn (xsqrt _ G4 ltac:(lra)) G5 W5.
  destruct (fopp b GB) as [G6 W6].
  opn (xadd _ _ G6 G5 ltac:(rewrite W6, W5; smallv)) G7 W7. rewrite W6, W5 in W7.
  opn (xmul (float_of_dec 2.0) c Fa GC ltac:(rewrite Va; smallv)) G8 W8. rewrite Va in W8.
  assert (P7 : 1000000 <= val (- b + PrimFloat.sqrt (b * b - float_of_dec 4.0 * a * c))%float) by (rewrite W7; interval).
  opn (xdiv _ _ G8 G7 ltac:(lra) ltac:(rewrite W8, W7; smallv)) G9 W9. rewrite W8, W7 in W9.
  split; [exact G9|]. rewrite W9. 
  Time (rewrite W4, WA, WB, WC; split; interval with (i_bisect (val x), i_prec 60)).
Qed.
End S.

(* powi(x, 4) is a number for 0 <= x <= 3 *)
Definition powi4_ok (L : Libm) : Prop := forall x,
  PrimFloat.leb 0 x = true -> PrimFloat.leb x 3 = true -> PrimFloat.is_nan (l_powi L x 4) = false.

Lemma fin_of_const c : match Prim2SF c with S754_finite _ _ _ | S754_zero _ => true | _ => false end = true -> fin c.
Proof.
  destruct (Prim2SF c) as [s| | |s m e] eqn:E; try discriminate; intros _;
  [eapply fin_zero|eapply fin_SF]; eassumption.
Qed.

Lemma psat_number L T : powi4_ok L -> ordered T -> ordered (@p_saturation (FArith L) T).
Proof.
  intros HL OT. 
  destruct (PrimFloat.ltb T (float_of_dec 273.15)) eqn:A.
  { unfold p_saturation, T_MAX4. cbn [ltb lit FArith]. rewrite A. vm_compute. reflexivity. }
  destruct (PrimFloat.ltb (float_of_dec 647.096) T) eqn:B.
  { unfold p_saturation, T_MAX4. cbn [ltb lit FArith]. rewrite A, B. vm_compute. reflexivity. }
  rewrite (psat_is_root L T A B).
  assert (OA : ordered (float_of_dec 273.15)) by (vm_compute; reflexivity).
  assert (OB : ordered (float_of_dec 647.096)) by (vm_compute; reflexivity).
  destruct (root_fin L T) as (F & V1 & V2).
  - rewrite emb_le by assumption. apply Rle_b_true. rewrite emb_lt in A by assumption. apply Rlt_b_inv_f in A. exact A.
  - rewrite emb_le by assumption. apply Rle_b_true. rewrite emb_lt in B by assumption. apply Rlt_b_inv_f in B. exact B.
  - apply HL; rewrite leb_val; try assumption; try (apply fin_of_const; vm_compute; reflexivity); apply Rle_b_true.
    + rewrite (val_zero 0%float false) by reflexivity. exact V1.
    + fconst 3%float F3 V3. rewrite V3. eapply Rle_trans; [exact V2|interval].
Qed.

Lemma b23_number L T : PrimFloat.leb (float_of_dec 273.15) T = true -> PrimFloat.leb T (float_of_dec 2273.15) = true ->
  ordered (@B23_T2p (FArith L) T).
Proof.
  intros A B.
  fconst (float_of_dec 273.15) Fl Vl. fconst (float_of_dec 2273.15) Fh Vh.
  assert (FT : fin T) by (apply (fin_between T _ _ Fl Fh A B)).
  rewrite leb_val in A, B by assumption. apply Rle_b_inv in A, B.
  rewrite Vl in A. rewrite Vh in B.
  assert (HB : 0 <= val T <= 3000) by (split; [eapply Rle_trans; [|exact A]|eapply Rle_trans; [exact B|]]; interval).
  clear A B.
  apply fin_ordered.
  unfold B23_T2p, B23_T2p_n23. cbn [nth lit add mul FArith].
  fconst (float_of_dec 0.34805185628969e3) F0 V0. fconst (float_of_dec (-0.11671859879975e1)) F1 V1. fconst (float_of_dec 0.10192970039326e-2) F2 V2.
  opn (xmul _ T F2 FT ltac:(rewrite V2; smallv)) G1 W1. rewrite V2 in W1.
  opn (xadd _ _ F1 G1 ltac:(rewrite V1, W1; smallv)) G2 W2. rewrite V1, W1 in W2.
  opn (xmul _ T G2 FT ltac:(rewrite W2; smallv)) G3 W3. rewrite W2 in W3.
  opn (xadd _ _ F0 G3 ltac:(rewrite V0, W3; smallv)) G4 W4.
  exact G4.
Qed.

Lemma ref_powi4 : powi4_ok RefLibm.
Proof.
  intros x A B. fconst 3%float F3 V3. fconst 0%float F0 V0. fconst 1%float F1 V1.
  pose proof (fin_between x _ _ F0 F3 A B) as Fx.
  rewrite leb_val in A, B by assumption. apply Rle_b_inv in A, B. rewrite V0 in A. rewrite V3 in B.
  assert (HB : 0 <= val x <= 4) by (split; [exact A|eapply Rle_trans; [exact B|interval]]).
  clear A B. 
  change (ordered (1 * ((x * x) * (x * x)))%float). apply fin_ordered.
  opn (xmul x x Fx Fx ltac:(smallv)) G1 W1.
  opn (xmul _ _ G1 G1 ltac:(rewrite W1; smallv)) G2 W2.
  opn (xmul 1%float _ F1 G2 ltac:(rewrite V1, W2, W1; smallv)) G3 W3. exact G3.
Qed.
