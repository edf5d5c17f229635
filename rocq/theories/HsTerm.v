(* The parts of hs that finish: every region but the two-phase one, the two-phase region where
   an equation gives the temperature, and the bisection for the pressure bounds *)
From Coq Require Import ZArith List Bool Floats Lia PArith Reals Lra.
From Flocq Require Import Core.
From Interval Require Import Tactic.
From Verif Require Import Num Types Region Constant Region R4Sat Reg1 Reg4 Api FloatInst RealInst RegionMap FloatOrder FloatErr SatFloat Spec LoopFacts Bisect TermFacts TermFloat.

Section Any.
Context {N : Arith}.
Lemma hs_known fuel h s a :
  let r := if Z.eqb (args_region a) REGION_NONE then hs_sub_region h s else args_region a in
  r <> 4%Z \/ (ltb region4_T_hs_s4V_623 s = true /\ ltb s region4_T_hs_s4V_273 = true) ->
  exists v, call fuel HS h s a = Some v.
Proof.
  intros r H. cbn [call]. unfold hs, o_id_reg_info, pair_properties_o.
  match goal with |- context [if ?b then _ else _] => destruct b end; [eauto|].
  match goal with |- context [if ?b then _ else _] => destruct b end; [eauto|].
  replace (if Z.eqb (args_region a) REGION_NONE then Some (hs_sub_region h s) else Some (args_region a)) with (Some r)
    by (unfold r; destruct (Z.eqb _ _); reflexivity).
  assert (K : (r =? 4)%Z = false \/ forall o, exists v, hs_reg4 fuel h s o = Some v).
  { destruct H as [H|[H1 H2]]; [left; apply Z.eqb_neq; exact H|right; intros o].
    unfold hs_reg4, hs2T_reg4. rewrite H1, H2. cbn [andb]. eauto. }
  destruct (args_o_id a =? OR)%Z; [eauto|]. unfold tot2.
  destruct (args_o_id a =? OX)%Z; destruct K as [K|K].
  - rewrite K. repeat match goal with |- context [if ?b then _ else _] => destruct b end; eauto.
  - repeat match goal with |- context [if ?b then _ else _] => destruct b end; eauto.
  - rewrite K. repeat match goal with |- context [if ?b then _ else _] => destruct b end; eauto.
  - repeat match goal with |- context [if ?b then _ else _] => destruct b end; eauto.
Qed.
End Any.

Open Scope R_scope.
Definition half (a b : float) : float := (float_of_dec 0.5 * (a + b))%float.
Lemma half_err a b : fin a -> fin b -> Rabs (val a) <= 20 -> Rabs (val b) <= 20 ->
  fin (half a b) /\ Rabs (val (half a b) - (val a + val b) / 2) <= 1/100000000000000.
Proof.
  intros Fa Fb A B. fconst (float_of_dec 0.5) Fh Vh.
  apply Rabs_le_inv in A, B. unfold half.
  destruct (xadd a b Fa Fb) as (d & e & (D & E) & G & W); [apply small_1000; apply Rabs_le; lra|].
  apply Rabs_le_inv in D, E.
  assert (W' : Rabs (val (a + b)%float - (val a + val b)) <= 5/1000000000000000).
  { replace (val (a + b)%float - (val a + val b)) with ((val a + val b) * d + e) by (rewrite W; ring).
    set (q := val a + val b) in *. assert (Q : -40 <= q <= 40) by (unfold q; lra). apply Rabs_le. split; interval. }
  apply Rabs_le_inv in W'.
  assert (Vh' : val (float_of_dec 0.5) = 1/2) by (rewrite Vh; simpl; lra).
  destruct (xmul _ _ Fh G) as (d1 & e1 & (D1 & E1) & G1 & W1); [apply small_1000; rewrite Vh'; apply Rabs_le; split; lra|].
  split; [exact G1|]. apply Rabs_le_inv in D1, E1.
  rewrite Vh' in W1. rewrite W1. set (z := val (a + b)%float) in *.
  apply Rabs_le.
  assert (Z : -41 <= z <= 41) by lra. 
  assert (X : Rabs (1 / 2 * z * d1 + e1) <= 4/1000000000000000) by (apply Rabs_le; split; interval).
  apply Rabs_le_inv in X. split; lra.
Qed.

Section Liquid.
Variable L : Libm.
Notation A := (FArith L).
Definition liq_round (h : float) (st : float * float * float) : float * float * float + float * float :=
  let '(hL, lo, hi) := st in
  if (@ltb A (float_of_dec 1.0e-04) (PrimFloat.abs (hL - h)%float) && @ltb A (float_of_dec 1.0e-4) (PrimFloat.abs (hi - lo)%float))%bool then
    let PL := half lo hi in
    let hL := @pT2h_reg1 A PL (@T_saturation A PL) in
    if @ltb A h hL then inl (hL, lo, PL) else inl (hL, PL, hi)
  else inr (lo, hi).
Lemma liquid_round fuel h : @hs2T_reg4_liquid A fuel h =
  match loop_pos fuel (liq_round h) (float_of_dec (-1000), @P_MIN A, @Ps_623 A) with inr r => Some r | inl _ => None end.
Proof. reflexivity. Qed.

Lemma liq_ends h k : forall hL lo hi, fin lo -> fin hi ->
  Rabs (val lo) <= 18 - INR k / 1000 -> Rabs (val hi) <= 18 - INR k / 1000 ->
  Rabs (val hi - val lo) <= 5/100000 * 2 ^ k + 1/10000000000000 -> (k <= 20)%nat ->
  exists r, loop_nat (liq_round h) (S k) (hL, lo, hi) = inr r.
Proof.
  induction k as [|k IH]; intros hL lo hi Fl Fh Bl Bh W Hk; cbn [loop_nat]; unfold liq_round at 1;
    destruct (@ltb A (float_of_dec 1.0e-04) (PrimFloat.abs (hL - h)%float)); cbn [andb]; [|eauto|..|eauto].
  - destruct (@ltb A (float_of_dec 1.0e-4) (PrimFloat.abs (hi - lo)%float)) eqn:E; [exfalso|eauto].
    fconst (float_of_dec 1.0e-4) Fc Vc. cbn [INR] in Bl, Bh. cbn [pow] in W. apply Rabs_le_inv in Bl, Bh, W.
    destruct (xsub hi lo Fh Fl) as (d & e & (D & Ee) & G & X); [apply small_1000; apply Rabs_le; lra|].
    destruct (fabs _ G) as [G1 X1]. cbn [ltb FArith] in E. rewrite ltb_val in E by assumption.
    apply Rlt_b_inv in E. rewrite X1, X, Vc in E. apply Rabs_le_inv in D, Ee.
    set (w := val hi - val lo) in *.
    assert (Y : Rabs (w * (1 + d) + e) <= 9/100000) by (apply Rabs_le; split; interval).
    simpl in E. lra.
  - match goal with |- context [if ?b then _ else _] => destruct b end; [|eauto].
    assert (K0 : 0 <= INR (S k)) by apply pos_INR. rewrite S_INR in *.
    destruct (half_err lo hi Fl Fh) as [Fm Em]; [lra|lra|].
    assert (P : 2 ^ S k = 2 * 2 ^ k) by reflexivity. rewrite P in W.
    apply Rabs_le_inv in Bl, Bh, W, Em.
    assert (Bm : Rabs (val (half lo hi)) <= 18 - INR k / 1000) by (apply Rabs_le; lra).
    cbv zeta. match goal with |- context [if ?b then _ else _] => destruct b end; cbv iota; fold (loop_nat (liq_round h)).
    + apply IH; [assumption..|apply Rabs_le; lra|assumption|apply Rabs_le; lra|lia].
    + apply IH; [assumption..|apply Rabs_le; lra|apply Rabs_le; lra|lia].
Qed.

Lemma liquid_some fuel h : (21 <= fuel)%positive -> exists r, @hs2T_reg4_liquid A fuel h = Some r.
Proof.
  intros Hf. rewrite liquid_round, loop_pos_nat.
  fconst (float_of_dec 0.000611212677444) F0 V0. fconst (float_of_dec 16.5291642526045) F1 V1.
  destruct (liq_ends h 20 (float_of_dec (-1000)) _ _ F0 F1) as [r Hr]; [..|lia|].
  - rewrite V0. simpl INR. apply Rabs_le. split; interval.
  - rewrite V1. simpl INR. apply Rabs_le. split; interval.
  - rewrite V0, V1. apply Rabs_le. split; interval.
  - exists r. replace (Pos.to_nat fuel) with (21 + (Pos.to_nat fuel - 21))%nat by lia. rewrite loop_nat_add.
    match goal with |- context [loop_nat ?b 21 ?s] => replace (loop_nat b 21 s) with (@inr (float * float * float) _ r) by (symmetry; exact Hr) end.
    reflexivity.
Qed.
End Liquid.
