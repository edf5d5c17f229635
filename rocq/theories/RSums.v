(* Sums over coefficient tables in exact arithmetic, and their derivatives. *)
From Coq Require Import ZArith List Bool Reals Lra Lia.
From Coquelicot Require Import Coquelicot.
From Verif Require Import Num Algo RealInst RealSat Steps.
Import ListNotations.
Open Scope R_scope.

(* sum over the rows (i, j, n) of n * f i j *)
Definition tsum (t : list (Z * Z * R)) (f : Z -> Z -> R) : R :=
  fold_right (fun e acc => snd e * f (fst (fst e)) (snd (fst e)) + acc) 0 t.

Lemma tsum_nil f : tsum [] f = 0.
Proof. reflexivity. Qed.
Lemma tsum_cons e t f : tsum (e :: t) f = snd e * f (fst (fst e)) (snd (fst e)) + tsum t f.
Proof. reflexivity. Qed.
Ltac ts := rewrite ?tsum_nil, ?tsum_cons.
Lemma tsum_ext t f g : (forall i j, f i j = g i j) -> tsum t f = tsum t g.
Proof. intros H. induction t as [|e t IH]; ts; [reflexivity|]. now rewrite IH, H. Qed.
Lemma tsum_scal t f c : tsum t (fun i j => c * f i j) = c * tsum t f.
Proof. induction t as [|e t IH]; ts; [ring|]. rewrite IH. ring. Qed.
Lemma tsum_opp t f : tsum t (fun i j => - f i j) = - tsum t f.
Proof. rewrite (tsum_ext t _ (fun i j => (-1) * f i j)) by (intros; ring). rewrite tsum_scal. ring. Qed.
Lemma tsum_plus t f g : tsum t (fun i j => f i j + g i j) = tsum t f + tsum t g.
Proof. induction t as [|e t IH]; ts; [ring|]. rewrite IH. ring. Qed.

Lemma fold_tsum t f : forall a,
  fold_left (fun v (e : Z * Z * R) => v + snd e * f (fst (fst e)) (snd (fst e))) t a = a + tsum t f.
Proof. induction t as [|e t IH]; intros a; cbn [fold_left]; ts; [ring|]. rewrite IH. ring. Qed.

(* integer powers *)
Lemma pw_pred x i : x <> 0 -> powerRZ x (i - 1) = powerRZ x i / x.
Proof. intros H. unfold Zminus. rewrite powerRZ_add by exact H. change (powerRZ x (- (1))) with (/ (x * 1)). field. exact H. Qed.
Lemma pw_pred2 x i : x <> 0 -> powerRZ x (i - 2) = powerRZ x i / (x * x).
Proof. intros H. unfold Zminus. rewrite powerRZ_add by exact H. change (powerRZ x (- (2))) with (/ (x * (x * 1))). field. exact H. Qed.

Lemma is_derive_pw i x : x <> 0 -> is_derive (fun x => powerRZ x i) x (IZR i * powerRZ x (i - 1)).
Proof.
  intros Hx. rewrite pw_pred by exact Hx. destruct i as [|n|n].
  - cbn [powerRZ]. replace (IZR 0 * (1 / x)) with 0 by (field; exact Hx). apply @is_derive_const.
  - cbn [powerRZ].
    replace (IZR (Z.pos n) * (x ^ Pos.to_nat n / x)) with (INR (Pos.to_nat n) * 1 * x ^ pred (Pos.to_nat n)).
    + apply (is_derive_pow (fun x => x)). apply @is_derive_id.
    + replace (IZR (Z.pos n)) with (INR (Pos.to_nat n)) by (rewrite INR_IZR_INZ, positive_nat_Z; reflexivity).
      destruct (Pos2Nat.is_succ n) as [m Hm]. rewrite Hm. cbn [pred pow]. field. exact Hx.
  - cbn [powerRZ].
    replace (IZR (Z.neg n) * (/ x ^ Pos.to_nat n / x))
      with (- (INR (Pos.to_nat n) * 1 * x ^ pred (Pos.to_nat n)) / (x ^ Pos.to_nat n) ^ 2).
    + apply is_derive_inv; [apply (is_derive_pow (fun x => x)); apply @is_derive_id|]. now apply pow_nonzero.
    + change (Z.neg n) with (- Z.pos n)%Z. rewrite opp_IZR.
      replace (IZR (Z.pos n)) with (INR (Pos.to_nat n)) by (rewrite INR_IZR_INZ, positive_nat_Z; reflexivity).
      destruct (Pos2Nat.is_succ n) as [m Hm]. rewrite Hm. cbn [pred pow]. field.
      split; [now apply pow_nonzero|exact Hx].
Qed.

Lemma is_derive_tsum t (f : R -> Z -> Z -> R) (f' : Z -> Z -> R) x :
  (forall i j, is_derive (fun x => f x i j) x (f' i j)) ->
  is_derive (fun x => tsum t (f x)) x (tsum t f').
Proof.
  intros H. induction t as [|e t IH].
  - change (is_derive (fun _ : R => 0) x 0). apply (is_derive_const (K := R_AbsRing) (V := R_NormedModule) 0 x).
  - change (is_derive (fun x => snd e * f x (fst (fst e)) (snd (fst e)) + tsum t (f x)) x
      (snd e * f' (fst (fst e)) (snd (fst e)) + tsum t f')).
    apply (is_derive_plus (K := R_AbsRing) (V := R_NormedModule)); [|exact IH].
    apply (is_derive_scal (fun x => f x (fst (fst e)) (snd (fst e)))). apply H.
Qed.

(* the table polynomial and its partial derivatives *)
Section Table.
Variable t : list (Z * Z * R).
Definition P (x y : R) := tsum t (fun i j => powerRZ x i * powerRZ y j).
Definition Px (x y : R) := tsum t (fun i j => IZR i * powerRZ x (i - 1) * powerRZ y j).
Definition Py (x y : R) := tsum t (fun i j => powerRZ x i * (IZR j * powerRZ y (j - 1))).
Definition Pxx (x y : R) := tsum t (fun i j => IZR i * (IZR (i - 1) * powerRZ x (i - 2)) * powerRZ y j).
Definition Pxy (x y : R) := tsum t (fun i j => IZR i * powerRZ x (i - 1) * (IZR j * powerRZ y (j - 1))).
Definition Pyy (x y : R) := tsum t (fun i j => powerRZ x i * (IZR j * (IZR (j - 1) * powerRZ y (j - 2)))).

Lemma d_scal_r (f : R -> R) x l c : is_derive f x l -> is_derive (fun x => f x * c) x (l * c).
Proof.
  intros H. apply (is_derive_ext (fun x => c * f x)); [intros; apply Rmult_comm|].
  rewrite (Rmult_comm l c). now apply (is_derive_scal f).
Qed.
Lemma d_scal_l (f : R -> R) x l c : is_derive f x l -> is_derive (fun x => c * f x) x (c * l).
Proof. exact (is_derive_scal f x c l). Qed.
Lemma is_derive_pw1 i x : x <> 0 -> is_derive (fun x => powerRZ x (i - 1)) x (IZR (i - 1) * powerRZ x (i - 2)).
Proof. intros H. replace (i - 2)%Z with (i - 1 - 1)%Z by lia. now apply is_derive_pw. Qed.

Lemma P_x x y : x <> 0 -> is_derive (fun x => P x y) x (Px x y).
Proof. intros H. apply is_derive_tsum. intros i j. apply d_scal_r. now apply is_derive_pw. Qed.
Lemma P_y x y : y <> 0 -> is_derive (fun y => P x y) y (Py x y).
Proof. intros H. apply (is_derive_tsum t (fun y i j => powerRZ x i * powerRZ y j)). intros i j. apply d_scal_l. now apply is_derive_pw. Qed.
Lemma Px_x x y : x <> 0 -> is_derive (fun x => Px x y) x (Pxx x y).
Proof. intros H. apply is_derive_tsum. intros i j. apply d_scal_r. apply d_scal_l. now apply is_derive_pw1. Qed.
Lemma Px_y x y : y <> 0 -> is_derive (fun y => Px x y) y (Pxy x y).
Proof. intros H. apply (is_derive_tsum t (fun y i j => IZR i * powerRZ x (i - 1) * powerRZ y j)). intros i j. apply d_scal_l. now apply is_derive_pw. Qed.
Lemma Py_y x y : y <> 0 -> is_derive (fun y => Py x y) y (Pyy x y).
Proof. intros H. apply (is_derive_tsum t (fun y i j => powerRZ x i * (IZR j * powerRZ y (j - 1)))). intros i j. apply d_scal_l. apply d_scal_l. now apply is_derive_pw1. Qed.
Lemma Py_x x y : x <> 0 -> is_derive (fun x => Py x y) x (Pxy x y).
Proof. intros H. apply is_derive_tsum. intros i j. apply d_scal_r. now apply is_derive_pw. Qed.
End Table.

(* the model's sums over R *)
Section Model.
Variable t : list (Z * Z * R).
Let F := RArith.
Lemma lit0 : @lit RArith {| dm := 0; de := (-1)%Z |} = 0.
Proof. cbn. lra. Qed.

Lemma fold_tsum' (g : R -> Z*Z*R -> R) f a :
  (forall v e, g v e = v + snd e * f (fst (fst e)) (snd (fst e))) -> fold_left g t a = a + tsum t f.
Proof. intros H. rewrite <- fold_tsum. apply fold_ext. exact H. Qed.

Lemma poly_powi_P x y : @poly_powi RArith x y t = P t x y.
Proof.
  unfold poly_powi. rewrite (fold_tsum' _ (fun i j => powerRZ x i * powerRZ y j));
    [|intros; unfold row_n, row_i, row_j; rnum; ring].
  unfold P. rnum. lra.
Qed.
Lemma poly_i_powi_P x y : @poly_i_powi RArith x y t = Px t x y.
Proof.
  unfold poly_i_powi. rewrite (fold_tsum' _ (fun i j => IZR i * powerRZ x (i - 1) * powerRZ y j));
    [|intros; unfold row_n, row_i, row_j; rnum; ring].
  unfold Px. rnum. lra.
Qed.
Lemma poly_ii_powi_P x y : @poly_ii_powi RArith x y t = Pxx t x y.
Proof.
  unfold poly_ii_powi. rewrite (fold_tsum' _ (fun i j => IZR i * (IZR (i - 1) * powerRZ x (i - 2)) * powerRZ y j));
    [|intros; unfold row_n, row_i, row_j; change (@ofZ RArith) with IZR; rewrite mult_IZR; rnum; ring].
  unfold Pxx. rnum. lra.
Qed.
Lemma poly_j_powi_P x y : @poly_j_powi RArith x y t = Py t x y.
Proof.
  unfold poly_j_powi. rewrite (fold_tsum' _ (fun i j => powerRZ x i * (IZR j * powerRZ y (j - 1))));
    [|intros; unfold row_n, row_i, row_j; rnum; ring].
  unfold Py. rnum. lra.
Qed.
Lemma poly_jj_powi_P x y : @poly_jj_powi RArith x y t = Pyy t x y.
Proof.
  unfold poly_jj_powi. rewrite (fold_tsum' _ (fun i j => powerRZ x i * (IZR j * (IZR (j - 1) * powerRZ y (j - 2)))));
    [|intros; unfold row_n, row_i, row_j; change (@ofZ RArith) with IZR; rewrite mult_IZR; rnum; ring].
  unfold Pyy. rnum. lra.
Qed.
Lemma poly_ij_powi_P x y : @poly_ij_powi RArith x y t = Pxy t x y.
Proof.
  unfold poly_ij_powi. rewrite (fold_tsum' _ (fun i j => IZR i * powerRZ x (i - 1) * (IZR j * powerRZ y (j - 1))));
    [|intros; unfold row_n, row_i, row_j; rnum; ring].
  unfold Pxy. rnum. lra.
Qed.

(* folds with several accumulators *)
Lemma fold2 (A B : Type) (l : list (Z * Z * R)) (f : A -> Z*Z*R -> A) (g : B -> Z*Z*R -> B) a b :
  fold_left (fun '(a, b) e => (f a e, g b e)) l (a, b) = (fold_left f l a, fold_left g l b).
Proof. revert a b. induction l; intros; cbn; [reflexivity|]. apply IHl. Qed.
Lemma fold4 (A B C D : Type) (l : list (Z * Z * R)) (f : A -> Z*Z*R -> A) (g : B -> Z*Z*R -> B) (h : C -> Z*Z*R -> C) (k : D -> Z*Z*R -> D) a b c d :
  fold_left (fun '(a, b, c, d) e => (f a e, g b e, h c e, k d e)) l (a, b, c, d)
  = (fold_left f l a, fold_left g l b, fold_left h l c, fold_left k l d).
Proof. revert a b c d. induction l; intros; cbn; [reflexivity|]. apply IHl. Qed.

Variables x y : R.
Hypothesis (Hx : x <> 0) (Hy : y <> 0).
Let m i j := powerRZ x i * powerRZ y j.
Lemma Px_m : Px t x y = tsum t (fun i j => IZR i * m i j) / x.
Proof.
  unfold Px, m, Rdiv. rewrite Rmult_comm, <- tsum_scal. apply tsum_ext. intros. rewrite pw_pred by exact Hx. field. exact Hx.
Qed.
Lemma Py_m : Py t x y = tsum t (fun i j => IZR j * m i j) / y.
Proof.
  unfold Py, m, Rdiv. rewrite Rmult_comm, <- tsum_scal. apply tsum_ext. intros. rewrite pw_pred by exact Hy. field. exact Hy.
Qed.
Lemma Pxx_m : Pxx t x y = tsum t (fun i j => IZR (i - 1) * (IZR i * m i j)) / (x * x).
Proof.
  unfold Pxx, m, Rdiv. rewrite Rmult_comm, <- tsum_scal. apply tsum_ext. intros. rewrite pw_pred2 by exact Hx. field. exact Hx.
Qed.
Lemma Pyy_m : Pyy t x y = tsum t (fun i j => IZR (j * (j - 1)) * m i j) / (y * y).
Proof.
  unfold Pyy, m, Rdiv. rewrite Rmult_comm, <- tsum_scal. apply tsum_ext. intros. rewrite pw_pred2, mult_IZR by exact Hy. field. exact Hy.
Qed.
Lemma Pxy_m : Pxy t x y = tsum t (fun i j => IZR j * (IZR i * m i j)) / (x * y).
Proof.
  unfold Pxy, m, Rdiv. rewrite Rmult_comm, <- tsum_scal. apply tsum_ext. intros. rewrite !pw_pred by assumption. field. auto.
Qed.

Ltac one f := rewrite (fold_tsum' _ f); [|intros; unfold row_n, row_i, row_j, m; rnum; ring].

Lemma polys_0_j_P : @polys_0_j_powi RArith x y t = (P t x y, Py t x y).
Proof.
  unfold polys_0_j_powi. rewrite fold2.
  one m. one (fun i j => IZR j * m i j).
  rewrite Py_m. unfold P. f_equal; rnum; fold m; [|f_equal]; lra.
Qed.
Lemma polys_i_j_P : @polys_i_j_powi RArith x y t = (Px t x y, Py t x y).
Proof.
  unfold polys_i_j_powi. rewrite fold2.
  one (fun i j => IZR i * m i j). one (fun i j => IZR j * m i j).
  rewrite Py_m, Px_m. f_equal; rnum; f_equal; lra.
Qed.
Lemma polys_4_P : @polys_i_ii_ij_jj_powi RArith x y t = (Px t x y, Pxx t x y, Pxy t x y, Pyy t x y).
Proof.
  unfold polys_i_ii_ij_jj_powi. rewrite fold4.
  one (fun i j => IZR i * m i j). one (fun i j => IZR (i - 1) * (IZR i * m i j)).
  one (fun i j => IZR j * (IZR i * m i j)). one (fun i j => IZR (j * (j - 1)) * m i j).
  rewrite Pxx_m, Pxy_m, Pyy_m, Px_m. repeat f_equal; rnum; try (f_equal; lra); lra.
Qed.

Variables (steps : list (nat * nat)) (Hs : visited steps = seq 0 (length t)).
Lemma s_P : @poly_powi_steps RArith x y t steps = P t x y.
Proof. rewrite poly_powi_steps_plain by exact Hs. apply poly_powi_P. Qed.
Lemma s_Px : @poly_i_powi_steps RArith x y t steps = Px t x y.
Proof. rewrite poly_i_powi_steps_plain by exact Hs. apply poly_i_powi_P. Qed.
Lemma s_Pxx : @poly_ii_powi_steps RArith x y t steps = Pxx t x y.
Proof. rewrite poly_ii_powi_steps_plain by exact Hs. apply poly_ii_powi_P. Qed.
Lemma s_Py : @poly_j_powi_steps RArith x y t steps = Py t x y.
Proof. rewrite poly_j_powi_steps_plain by exact Hs. apply poly_j_powi_P. Qed.
Lemma s_Pyy : @poly_jj_powi_steps RArith x y t steps = Pyy t x y.
Proof. rewrite poly_jj_powi_steps_plain by exact Hs. apply poly_jj_powi_P. Qed.
Lemma s_Pxy : @poly_ij_powi_steps RArith x y t steps = Pxy t x y.
Proof.
  rewrite poly_ij_powi_steps_plain by exact Hs.
  one (fun i j => IZR j * (IZR i * m i j)). rewrite Pxy_m. rnum. field_simplify_eq; [|auto..]. lra.
Qed.
Lemma s_0_j : @polys_0_j_powi_steps RArith x y t steps = (P t x y, Py t x y).
Proof. rewrite polys_0_j_powi_steps_plain by exact Hs. apply polys_0_j_P. Qed.
Lemma s_i_j : @polys_i_j_powi_steps RArith x y t steps = (Px t x y, Py t x y).
Proof. rewrite polys_i_j_powi_steps_plain by exact Hs. apply polys_i_j_P. Qed.
Lemma s_4 : @polys_i_ii_ij_jj_powi_steps RArith x y t steps = (Px t x y, Pxx t x y, Pxy t x y, Pyy t x y).
Proof. rewrite polys_i_ii_ij_jj_powi_steps_plain by exact Hs. apply polys_4_P. Qed.
Let mx i j := powerRZ x (i - 1) * powerRZ y j.
Ltac one' f := rewrite (fold_tsum' _ f); [|intros; unfold row_n, row_i, row_j, mx; rnum; ring].
Lemma s_i_ij : @polys_i_ij_powi_steps RArith x y t steps = (Px t x y, Pxy t x y).
Proof.
  rewrite polys_i_ij_powi_steps_plain by exact Hs. rewrite fold2.
  one' (fun i j => IZR i * mx i j). one' (fun i j => IZR j * (IZR i * mx i j)).
  f_equal.
  - unfold Px. rewrite (tsum_ext t (fun i j => IZR i * powerRZ x (i - 1) * powerRZ y j) (fun i j => IZR i * mx i j)) by (intros; unfold mx; ring). rnum. lra.
  - rewrite Pxy_m.
    replace (tsum t (fun i j => IZR j * (IZR i * mx i j))) with (tsum t (fun i j => IZR j * (IZR i * m i j)) * / x).
    + rnum. field. auto.
    + rewrite Rmult_comm, <- tsum_scal. apply tsum_ext. intros. unfold mx, m. rewrite pw_pred by exact Hx. field. exact Hx.
Qed.
Lemma s_i_ii : @polys_i_ii_powi_steps RArith x y t steps = (Px t x y, Pxx t x y).
Proof.
  rewrite polys_i_ii_powi_steps_plain by exact Hs. rewrite fold2.
  one' (fun i j => IZR i * mx i j). one' (fun i j => IZR (i - 1) * (IZR i * mx i j)).
  f_equal.
  - unfold Px. rewrite (tsum_ext t (fun i j => IZR i * powerRZ x (i - 1) * powerRZ y j) (fun i j => IZR i * mx i j)) by (intros; unfold mx; ring). rnum. lra.
  - rewrite Pxx_m.
    replace (tsum t (fun i j => IZR (i - 1) * (IZR i * mx i j))) with (tsum t (fun i j => IZR (i - 1) * (IZR i * m i j)) * / x).
    + rnum. field. auto.
    + rewrite Rmult_comm, <- tsum_scal. apply tsum_ext. intros. unfold mx, m. rewrite pw_pred by exact Hx. field. exact Hx.
Qed.
End Model.
