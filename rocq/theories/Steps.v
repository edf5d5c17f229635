(* Summation in steps against the plain loop, for every arithmetic. *)
From Coq Require Import ZArith List Bool Lia.
From Verif Require Import Num Algo.
Import ListNotations.
Open Scope num_scope.

(* the table indices a step list visits, in order *)
Definition visited (steps : list (nat * nat)) : list nat :=
  concat (map (fun st => seq (fst st) (snd st - fst st)) steps).

Lemma for_steps_visited {A : Type} steps (body : A -> nat -> A) init :
  for_steps steps body init = fold_left body (visited steps) init.
Proof.
  unfold for_steps, visited. revert init. induction steps as [|st l IH]; intros init; [reflexivity|].
  cbn [map concat fold_left]. rewrite fold_left_app. apply IH.
Qed.

Lemma fold_nth {A B : Type} (g : A -> B -> A) (d : B) (l : list B) : forall init,
  fold_left (fun acc k => g acc (nth k l d)) (seq 0 (length l)) init = fold_left g l init.
Proof.
  assert (H : forall (l pre : list B) init,
    fold_left (fun acc k => g acc (nth k (pre ++ l) d)) (seq (length pre) (length l)) init = fold_left g l init).
  { clear. induction l as [|b l IH]; intros pre init; [reflexivity|].
    cbn [length seq fold_left]. rewrite app_nth2, Nat.sub_diag by lia. cbn [nth].
    specialize (IH (pre ++ [b])%list (g init b)). rewrite <- app_assoc in IH. cbn [app] in IH.
    rewrite app_length in IH. cbn [length] in IH. replace (length pre + 1)%nat with (S (length pre)) in IH by lia.
    exact IH. }
  intros init. exact (H l nil init).
Qed.

Section Any.
Context {N : Arith}.
Lemma steps_fold {A : Type} (g : A -> row -> A) (t : list row) steps init :
  visited steps = seq 0 (length t) ->
  for_steps steps (fun acc k => g acc (IJn_at t k)) init = fold_left g t init.
Proof. intros H. rewrite for_steps_visited, H. apply fold_nth. Qed.

Variables (vi vj : num) (t : list row) (steps : list (nat * nat)) (H : visited steps = seq 0 (length t)).

Lemma poly_powi_steps_plain : poly_powi_steps vi vj t steps = poly_powi vi vj t.
Proof. exact (steps_fold (fun v e => v + row_n e * powi vi (row_i e) * powi vj (row_j e)) t steps _ H). Qed.
Lemma poly_i_powi_steps_plain : poly_i_powi_steps vi vj t steps = poly_i_powi vi vj t.
Proof. exact (steps_fold (fun v e => v + row_n e * ofZ (row_i e) * powi vi (row_i e - 1) * powi vj (row_j e)) t steps _ H). Qed.
Lemma poly_ii_powi_steps_plain : poly_ii_powi_steps vi vj t steps = poly_ii_powi vi vj t.
Proof. exact (steps_fold (fun v e => v + row_n e * ofZ (row_i e * (row_i e - 1)) * powi vi (row_i e - 2) * powi vj (row_j e)) t steps _ H). Qed.
Lemma poly_j_powi_steps_plain : poly_j_powi_steps vi vj t steps = poly_j_powi vi vj t.
Proof. exact (steps_fold (fun v e => v + row_n e * powi vi (row_i e) * ofZ (row_j e) * powi vj (row_j e - 1)) t steps _ H). Qed.
Lemma poly_jj_powi_steps_plain : poly_jj_powi_steps vi vj t steps = poly_jj_powi vi vj t.
Proof. exact (steps_fold (fun v e => v + row_n e * powi vi (row_i e) * ofZ (row_j e * (row_j e - 1)) * powi vj (row_j e - 2)) t steps _ H). Qed.

Lemma fold_ext {A B : Type} (f g : A -> B -> A) l : (forall a b, f a b = g a b) -> forall a, fold_left f l a = fold_left g l a.
Proof. intros E. induction l; intros; cbn; [reflexivity|]. rewrite E. apply IHl. Qed.

Lemma polys_0_j_powi_steps_plain : polys_0_j_powi_steps vi vj t steps = polys_0_j_powi vi vj t.
Proof.
  unfold polys_0_j_powi_steps, polys_0_j_powi.
  rewrite <- (steps_fold _ t steps _ H). rewrite !for_steps_visited.
  erewrite fold_ext; [reflexivity|]. intros [a b] k; reflexivity.
Qed.
Lemma polys_i_j_powi_steps_plain : polys_i_j_powi_steps vi vj t steps = polys_i_j_powi vi vj t.
Proof.
  unfold polys_i_j_powi_steps, polys_i_j_powi.
  rewrite <- (steps_fold _ t steps _ H). rewrite !for_steps_visited.
  erewrite fold_ext; [reflexivity|]. intros [a b] k; reflexivity.
Qed.
Lemma polys_i_ii_ij_jj_powi_steps_plain : polys_i_ii_ij_jj_powi_steps vi vj t steps = polys_i_ii_ij_jj_powi vi vj t.
Proof.
  unfold polys_i_ii_ij_jj_powi_steps, polys_i_ii_ij_jj_powi.
  rewrite <- (steps_fold _ t steps _ H). rewrite !for_steps_visited.
  erewrite fold_ext; [reflexivity|]. intros [[[a b] c] d] k; reflexivity.
Qed.
(* the three without a counterpart in polynomial.rs: plain loops over the table *)
Lemma poly_ij_powi_steps_plain : poly_ij_powi_steps vi vj t steps =
  fold_left (fun v e => v + row_n e * ofZ (row_i e) * powi vi (row_i e) * ofZ (row_j e) * powi vj (row_j e)) t (#0.0) / vi / vj.
Proof.
  unfold poly_ij_powi_steps.
  rewrite <- (steps_fold _ t steps _ H). reflexivity.
Qed.
Lemma polys_i_ij_powi_steps_plain : polys_i_ij_powi_steps vi vj t steps =
  let '(a, b) := fold_left (fun '(a, b) e =>
      let item := row_n e * ofZ (row_i e) * powi vi (row_i e - 1) * powi vj (row_j e) in
      (a + item, b + ofZ (row_j e) * item)) t (#0.0, #0.0) in (a, b / vj).
Proof.
  unfold polys_i_ij_powi_steps.
  rewrite <- (steps_fold _ t steps _ H). rewrite !for_steps_visited.
  erewrite fold_ext; [reflexivity|]. intros [a b] k; reflexivity.
Qed.
Lemma polys_i_ii_powi_steps_plain : polys_i_ii_powi_steps vi vj t steps =
  let '(a, b) := fold_left (fun '(a, b) e =>
      let item := row_n e * ofZ (row_i e) * powi vi (row_i e - 1) * powi vj (row_j e) in
      (a + item, b + ofZ (row_i e - 1) * item)) t (#0.0, #0.0) in (a, b / vi).
Proof.
  unfold polys_i_ii_powi_steps.
  rewrite <- (steps_fold _ t steps _ H). rewrite !for_steps_visited.
  erewrite fold_ext; [reflexivity|]. intros [a b] k; reflexivity.
Qed.
End Any.

(* [splits a steps n]: the half-open ranges of [steps] follow each other from a to n *)
Inductive splits : nat -> list (nat * nat) -> nat -> Prop :=
| splits_nil a : splits a [] a
| splits_cons a b l n : (a <= b)%nat -> splits b l n -> splits a ((a, b) :: l) n.

Lemma splits_le a l n : splits a l n -> (a <= n)%nat.
Proof. induction 1; lia. Qed.
Lemma splits_visited a l n : splits a l n -> visited l = seq a (n - a).
Proof.
  induction 1 as [a|a b l n Hab Hl IH]; [now rewrite Nat.sub_diag|].
  pose proof (splits_le _ _ _ Hl).
  unfold visited in *. cbn [map concat fst snd]. rewrite IH.
  replace (n - a)%nat with ((b - a) + (n - b))%nat by lia. rewrite seq_app. f_equal. f_equal. lia.
Qed.
Lemma splits_all l n : splits 0 l n -> visited l = seq 0 n.
Proof. intros H. apply splits_visited in H. now rewrite Nat.sub_0_r in H. Qed.
Ltac splits := repeat (constructor; [repeat constructor|]); apply splits_nil.
