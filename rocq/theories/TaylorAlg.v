(* Polynomials with approximate coefficients: error bounds for sums and products of
   lists of coefficients, proved once for an abstract coefficient type and used twice
   (rows of binary64 numbers, lists of rows). *)
From Coq Require Import ZArith Reals List Lra Lia Psatz.
Import ListNotations.
Open Scope R_scope.

Section Lists.
Context {E : Type}.
Variable addE : E -> E -> E.

Fixpoint addl (a b : list E) : list E :=
  match a, b with
  | [], _ => b
  | _, [] => a
  | x :: a', y :: b' => addE x y :: addl a' b'
  end.
End Lists.

(* [fn]: the element is finite; [L]: the number it stands for; [N]: a norm *)
Record alg (E : Type) (fn : E -> Prop) (L N : E -> R) (addE : E -> E -> E) (eps : R) : Prop := {
  al_eps : 0 <= eps <= / 1024;
  al_N : forall a, Rabs (L a) <= N a;
  al_add : forall a b, fn (addE a b) -> fn a /\ fn b /\
     Rabs (L (addE a b) - (L a + L b)) <= eps * (N a + N b) /\ N (addE a b) <= (1 + eps) * (N a + N b) }.

Section Alg.
Context {E : Type} {fn : E -> Prop} {L N : E -> R} {addE : E -> E -> E} {eps : R}.
Hypothesis A : alg E fn L N addE eps.
Variable w : R.
Hypothesis Hw : Rabs w <= 1.

Definition Ll (a : list E) : R := fold_right (fun x s => L x + w * s) 0 a.
Definition Nl (a : list E) : R := fold_right (fun x s => N x + s) 0 a.
Notation fl := (Forall fn).

Lemma N_pos a : 0 <= N a.
Proof. eapply Rle_trans; [apply Rabs_pos|apply (al_N _ _ _ _ _ _ A)]. Qed.
Lemma Nl_pos a : 0 <= Nl a.
Proof. induction a as [|x a IH]; cbn; [lra|]. pose proof (N_pos x). fold (Nl a). lra. Qed.
Lemma w_le s : Rabs (w * s) <= Rabs s.
Proof. rewrite Rabs_mult. pose proof (Rabs_pos s). pose proof (Rabs_pos w). nra. Qed.
Lemma Ll_le a : Rabs (Ll a) <= Nl a.
Proof.
  induction a as [|x a IH]; cbn [Ll Nl fold_right]; [rewrite Rabs_R0; lra|]. fold (Ll a) (Nl a).
  eapply Rle_trans; [apply Rabs_triang|]. pose proof (al_N _ _ _ _ _ _ A x). pose proof (w_le (Ll a)). lra.
Qed.

Lemma addl_ok a : forall b, fl (addl addE a b) -> fl a /\ fl b /\
  Rabs (Ll (addl addE a b) - (Ll a + Ll b)) <= eps * (Nl a + Nl b) /\ Nl (addl addE a b) <= (1 + eps) * (Nl a + Nl b).
Proof.
  pose proof (al_eps _ _ _ _ _ _ A) as He.
  induction a as [|x a IH]; intros b H.
  { cbn [addl] in *. split; [constructor|]. split; [exact H|]. cbn [Ll Nl fold_right]. fold (Ll b) (Nl b).
    replace (Ll b - (0 + Ll b)) with 0 by ring. rewrite Rabs_R0. pose proof (Nl_pos b). split; nra. }
  destruct b as [|y b].
  { cbn [addl] in *. split; [exact H|]. split; [constructor|]. cbn [Ll Nl fold_right]. fold (Ll a) (Nl a).
    match goal with |- context [Rabs ?z] => replace z with 0 by ring end. rewrite Rabs_R0.
    pose proof (Nl_pos a). pose proof (N_pos x). split; nra. }
  cbn [addl] in *. inversion H as [|? ? H1 H2]; subst. destruct (IH b H2) as (F1 & F2 & I1 & I2).
  destruct (al_add _ _ _ _ _ _ A x y H1) as (G1 & G2 & J1 & J2).
  split; [constructor; assumption|]. split; [constructor; assumption|].
  cbn [Ll Nl fold_right]. fold (Ll a) (Nl a) (Ll b) (Nl b) (Ll (addl addE a b)) (Nl (addl addE a b)).
  split; [|lra].
  replace (L (addE x y) + w * Ll (addl addE a b) - (L x + w * Ll a + (L y + w * Ll b)))
    with ((L (addE x y) - (L x + L y)) + w * (Ll (addl addE a b) - (Ll a + Ll b))) by ring.
  eapply Rle_trans; [apply Rabs_triang|]. pose proof (w_le (Ll (addl addE a b) - (Ll a + Ll b))). lra.
Qed.

Lemma alg_list : alg (list E) (Forall fn) Ll Nl (addl addE) eps.
Proof.
  split; [apply (al_eps _ _ _ _ _ _ A)|apply Ll_le|apply addl_ok].
Qed.
End Alg.

(* one step of a product: x b + w (a b) from the two parts *)
Lemma step (eps eps1 k t P Q cp cq nm nc ej ek ei nr : R) :
  0 <= eps <= / 1024 -> 0 <= eps1 <= / 1024 -> 0 <= k <= 31 -> k * (2 * (eps + eps1)) <= / 8 -> 0 <= t -> 0 <= P -> 0 <= Q ->
  ek <= cp + eps1 * P + t -> nm <= (1 + eps1) * P + t ->
  ei <= cq + k * (2 * (eps + eps1)) * Q + k * (2 * t) -> nc <= (1 + k * (2 * (eps + eps1))) * Q + k * (2 * t) ->
  ej <= eps * (nm + nc) -> nr <= (1 + eps) * (nm + nc) ->
  ej + ek + ei <= cp + cq + (k + 1) * (2 * (eps + eps1)) * (P + Q) + (k + 1) * (2 * t) /\
  nr <= (1 + (k + 1) * (2 * (eps + eps1))) * (P + Q) + (k + 1) * (2 * t).
Proof.
  intros He He1 Hk B2 Htm HP HQ Hek Hnm Hei Hnc Hej Hnr. set (beta := 2 * (eps + eps1)) in *.
  assert (B1 : eps * (1 + eps1) <= 2 * eps) by nra.
  assert (B3 : 0 <= k * beta) by (unfold beta; nra).
  assert (C1 : eps * (nm + nc) <= 2 * eps * P + 2 * eps * Q + t).
  { apply Rle_trans with (eps * ((1 + eps1) * P + t + ((1 + k * beta) * Q + k * (2 * t)))).
    - apply Rmult_le_compat_l; [lra|]. lra.
    - assert (eps * ((1 + eps1) * P) <= 2 * eps * P) by nra.
      assert (eps * ((1 + k * beta) * Q) <= 2 * eps * Q).
      { replace (2 * eps * Q) with (eps * (2 * Q)) by ring. apply Rmult_le_compat_l; [lra|]. apply Rmult_le_compat_r; lra. }
      assert (eps * (t + k * (2 * t)) <= t).
      { replace (t + k * (2 * t)) with ((1 + 2 * k) * t) by ring. rewrite <- Rmult_assoc.
        rewrite <- (Rmult_1_l t) at 2. apply Rmult_le_compat_r; [exact Htm|]. nra. }
      lra. }
  assert (C2 : 2 * eps * P + eps1 * P <= beta * P) by (unfold beta; nra).
  assert (C3 : 0 <= k * beta * P) by (apply Rmult_le_pos; assumption).
  assert (C4 : 2 * eps * Q <= beta * Q) by (unfold beta; nra).
  assert (D1 : (k + 1) * beta * (P + Q) = k * beta * P + beta * P + k * beta * Q + beta * Q) by ring.
  assert (D2 : (k + 1) * (2 * t) = k * (2 * t) + 2 * t) by ring.
  rewrite D2. split.
  - rewrite D1. lra.
  - replace ((1 + (k + 1) * beta) * (P + Q)) with (P + Q + (k + 1) * beta * (P + Q)) by ring. rewrite D1. lra.
Qed.
