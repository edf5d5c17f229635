(* Every use of summation in steps in the library. *)
From Coq Require Import ZArith List Bool Reals Lra Lia.
From Coquelicot Require Import Coquelicot.
From Interval Require Import Tactic.
From Verif Require Import Num Types Algo Constant Reg1 Reg2 Reg3Td Reg2Back Reg3Sub Reg3V RealInst RealSat RegionMap
  SpecSums Steps RSums.
Import ListNotations.
Open Scope num_scope.

Lemma covers_splits a l n : covers a l n -> splits a l n.
Proof. induction 1; constructor; auto. Qed.
Lemma covers_visited l n : covers 0 l n -> visited l = seq 0 n.
Proof. intros H. apply splits_all, covers_splits, H. Qed.
Lemma table_sum_tsum t f : table_sum t f = tsum t f.
Proof. induction t as [|[[i j] n] t IH]; [reflexivity|]. cbn [table_sum]. rewrite IH. reflexivity. Qed.

Section Any.
Context {N : Arith}.
Variables (vi vj : num) (t : list (Z * Z * num)) (steps : list (nat * nat)).
Hypothesis H : covers 0 steps (length t).
Lemma steps_all :
  poly_powi_steps vi vj t steps = poly_powi vi vj t /\
  poly_i_powi_steps vi vj t steps = poly_i_powi vi vj t /\
  poly_ii_powi_steps vi vj t steps = poly_ii_powi vi vj t /\
  poly_j_powi_steps vi vj t steps = poly_j_powi vi vj t /\
  poly_jj_powi_steps vi vj t steps = poly_jj_powi vi vj t /\
  polys_0_j_powi_steps vi vj t steps = polys_0_j_powi vi vj t /\
  polys_i_j_powi_steps vi vj t steps = polys_i_j_powi vi vj t /\
  polys_i_ii_ij_jj_powi_steps vi vj t steps = polys_i_ii_ij_jj_powi vi vj t.
Proof.
  apply covers_visited in H. repeat split.
  - now apply poly_powi_steps_plain.
  - now apply poly_i_powi_steps_plain.
  - now apply poly_ii_powi_steps_plain.
  - now apply poly_j_powi_steps_plain.
  - now apply poly_jj_powi_steps_plain.
  - now apply polys_0_j_powi_steps_plain.
  - now apply polys_i_j_powi_steps_plain.
  - now apply polys_i_ii_ij_jj_powi_steps_plain.
Qed.
End Any.

(* in exact arithmetic all of them are the table sums *)
Section Exact.
Open Scope R_scope.
Variables (x y : R) (t : list (Z * Z * R)) (steps : list (nat * nat)).
Hypothesis H : covers 0 steps (length t).
Let V := covers_visited _ _ H.
Lemma exact_1 :
  @poly_powi_steps RArith x y t steps = table_sum t (fun i j => powerRZ x i * powerRZ y j) /\
  @poly_i_powi_steps RArith x y t steps = table_sum t (fun i j => IZR i * powerRZ x (i - 1) * powerRZ y j) /\
  @poly_ii_powi_steps RArith x y t steps = table_sum t (fun i j => IZR i * (IZR (i - 1) * powerRZ x (i - 2)) * powerRZ y j) /\
  @poly_j_powi_steps RArith x y t steps = table_sum t (fun i j => powerRZ x i * (IZR j * powerRZ y (j - 1))) /\
  @poly_jj_powi_steps RArith x y t steps = table_sum t (fun i j => powerRZ x i * (IZR j * (IZR (j - 1) * powerRZ y (j - 2)))).
Proof.
  rewrite !table_sum_tsum. repeat split.
  - now apply s_P. - now apply s_Px. - now apply s_Pxx. - now apply s_Py. - now apply s_Pyy.
Qed.
Hypothesis (Hx : x <> 0) (Hy : y <> 0).
Lemma exact_2 :
  let i1 := table_sum t (fun i j => IZR i * powerRZ x (i - 1) * powerRZ y j) in
  let j1 := table_sum t (fun i j => powerRZ x i * (IZR j * powerRZ y (j - 1))) in
  let ii := table_sum t (fun i j => IZR i * (IZR (i - 1) * powerRZ x (i - 2)) * powerRZ y j) in
  let ij := table_sum t (fun i j => IZR i * powerRZ x (i - 1) * (IZR j * powerRZ y (j - 1))) in
  let jj := table_sum t (fun i j => powerRZ x i * (IZR j * (IZR (j - 1) * powerRZ y (j - 2)))) in
  @poly_ij_powi_steps RArith x y t steps = ij /\
  @polys_0_j_powi_steps RArith x y t steps = (table_sum t (fun i j => powerRZ x i * powerRZ y j), j1) /\
  @polys_i_j_powi_steps RArith x y t steps = (i1, j1) /\
  @polys_i_ij_powi_steps RArith x y t steps = (i1, ij) /\
  @polys_i_ii_powi_steps RArith x y t steps = (i1, ii) /\
  @polys_i_ii_ij_jj_powi_steps RArith x y t steps = (i1, ii, ij, jj).
Proof.
  cbv zeta. rewrite !table_sum_tsum. repeat split.
  - now apply s_Pxy. - now apply s_0_j. - now apply s_i_j. - now apply s_i_ij. - now apply s_i_ii. - now apply s_4.
Qed.
End Exact.

Ltac vis := apply splits_all; splits.
Section Uses.
Context {N : Arith}.
Variables pi tau : num.
Lemma uses_reg1 : let x := #7.1 - pi in let y := tau - #1.222 in let t := region1_gfe_IJn in
  gamma_reg1 pi tau = poly_powi x y t /\
  gamma_pi_reg1 pi tau = - poly_i_powi x y t /\
  gamma_pipi_reg1 pi tau = poly_ii_powi x y t /\
  gamma_tau_reg1 pi tau = poly_j_powi x y t /\
  gamma_tautau_reg1 pi tau = poly_jj_powi x y t /\
  polys_0_j_powi_reg1 pi tau = polys_0_j_powi x y t /\
  polys_i_j_powi_reg1 pi tau = (let '(a, b) := polys_i_j_powi x y t in (- a, b)) /\
  polys_i_ii_ij_jj_powi_reg1 pi tau = (let '(a, b, c, d) := polys_i_ii_ij_jj_powi x y t in (- a, b, - c, d)).
Proof.
  cbv zeta. unfold gamma_reg1, gamma_pi_reg1, gamma_pipi_reg1, gamma_tau_reg1, gamma_tautau_reg1, polys_0_j_powi_reg1,
    polys_i_j_powi_reg1, polys_i_ii_ij_jj_powi_reg1. cbv zeta.
  rewrite poly_powi_steps_plain, poly_i_powi_steps_plain, poly_ii_powi_steps_plain, poly_j_powi_steps_plain, poly_jj_powi_steps_plain,
    polys_0_j_powi_steps_plain, polys_i_j_powi_steps_plain, polys_i_ii_ij_jj_powi_steps_plain by vis.
  repeat split.
Qed.
Lemma uses_reg2 : let x := pi in let y := tau - #0.5 in let t := region2_gfe_IJn in
  gammar_reg2 pi tau = poly_powi x y t /\
  gammar_pi_reg2 pi tau = poly_i_powi x y t /\
  gammar_pipi_reg2 pi tau = poly_ii_powi x y t /\
  gammar_tau_reg2 pi tau = poly_j_powi x y t /\
  gammar_tautau_reg2 pi tau = poly_jj_powi x y t /\
  polys_0_j_powi_reg2 pi tau = polys_0_j_powi x y t /\
  polys_i_j_powi_reg2 pi tau = polys_i_j_powi x y t /\
  polys_i_ii_ij_jj_powi_reg2 pi tau = polys_i_ii_ij_jj_powi x y t.
Proof.
  cbv zeta. unfold gammar_reg2, gammar_pi_reg2, gammar_pipi_reg2, gammar_tau_reg2, gammar_tautau_reg2, polys_0_j_powi_reg2,
    polys_i_j_powi_reg2, polys_i_ii_ij_jj_powi_reg2. cbv zeta.
  rewrite poly_powi_steps_plain, poly_i_powi_steps_plain, poly_ii_powi_steps_plain, poly_j_powi_steps_plain, poly_jj_powi_steps_plain,
    polys_0_j_powi_steps_plain, polys_i_j_powi_steps_plain, polys_i_ii_ij_jj_powi_steps_plain by vis.
  destruct (polys_0_j_powi _ _ _), (polys_i_j_powi _ _ _), (polys_i_ii_ij_jj_powi _ _ _) as [[[? ?] ?] ?].
  repeat split.
Qed.
Lemma uses_reg3 : let x := pi in let y := tau in let t := region3_hfe_IJn in let n1 := region3_hfe_n1 in
  phi_reg3 x y = n1 * nln x + poly_powi x y t /\
  phi_delta_reg3 x y = n1 / x + poly_i_powi x y t /\
  phi_deltadelta_reg3 x y = (- n1) / x / x + poly_ii_powi x y t /\
  phi_tau_reg3 x y = poly_j_powi x y t /\
  phi_tautau_reg3 x y = poly_jj_powi x y t /\
  polys_0_j_powi_reg3 x y = (let '(a, b) := polys_0_j_powi x y t in (a + n1 * nln x, b)) /\
  polys_i_j_powi_reg3 x y = (let '(a, b) := polys_i_j_powi x y t in (a + n1 / x, b)) /\
  polys_i_ii_ij_jj_powi_reg3 x y =
    (let '(a, b, c, d) := polys_i_ii_ij_jj_powi x y t in (n1 / x + a, (- n1) / x / x + b, c, d)).
Proof.
  cbv zeta. unfold phi_reg3, phi_delta_reg3, phi_deltadelta_reg3, phi_tau_reg3, phi_tautau_reg3, polys_0_j_powi_reg3,
    polys_i_j_powi_reg3, polys_i_ii_ij_jj_powi_reg3. cbv zeta.
  rewrite poly_powi_steps_plain, poly_i_powi_steps_plain, poly_ii_powi_steps_plain, poly_j_powi_steps_plain, poly_jj_powi_steps_plain,
    polys_0_j_powi_steps_plain, polys_i_j_powi_steps_plain, polys_i_ii_ij_jj_powi_steps_plain by vis.
  repeat split.
Qed.
(* the sums without a plain counterpart in polynomial.rs use the whole table too *)
Lemma covered_rest :
  gamma_pitau_reg1 pi tau = - poly_ij_powi_steps (#7.1 - pi) (tau - #1.222) region1_gfe_IJn [(0%nat, length (@region1_gfe_IJn N))] /\
  polys_i_ii_powi_reg1 pi tau =
    (let '(a, b) := polys_i_ii_powi_steps (#7.1 - pi) (tau - #1.222) region1_gfe_IJn [(0%nat, length (@region1_gfe_IJn N))] in (- a, b)) /\
  polys_i_ij_powi_reg1 pi tau =
    (let '(a, b) := polys_i_ij_powi_steps (#7.1 - pi) (tau - #1.222) region1_gfe_IJn [(0%nat, length (@region1_gfe_IJn N))] in (- a, - b)) /\
  gammar_pitau_reg2 pi tau = poly_ij_powi_steps pi (tau - #0.5) region2_gfe_IJn [(0%nat, length (@region2_gfe_IJn N))] /\
  phi_deltatau_reg3 pi tau = poly_ij_powi_steps pi tau region3_hfe_IJn [(0%nat, length (@region3_hfe_IJn N))].
Proof. repeat split; reflexivity. Qed.
(* backward equations and sub-region volumes *)
Variables p T : num.
Lemma uses_back :
  ph2T_reg2b p T = #1.0 * poly_powi (p / #1.0 - #2.0) (T / #2000.0 - #2.6) ph2T_reg2b_IJn /\
  ps2T_reg2b p T = #1.0 * poly_powi (p / #1.0) (#10.0 - T / #0.7853) ps2T_reg2b_IJn.
Proof.
  unfold ph2T_reg2b, ps2T_reg2b. cbv zeta. rewrite !poly_powi_steps_plain by vis. split; reflexivity.
Qed.
Lemma sum_steps d t steps : visited steps = seq 0 (length t) -> pT2v_sum_steps p T t d steps = pT2v_sum p T t d.
Proof. intros H. unfold pT2v_sum_steps, pT2v_sum. now rewrite poly_powi_steps_plain. Qed.
Lemma uses_sub :
  pT2v_3d p T = pT2v_sum p T pT2v_3d_IJn (mk_para (#40.0) (#690.0) (#0.0029) (#0.559) (#0.939) (#1.0) (#1.0) (#4.0)) /\
  pT2v_3f p T = pT2v_sum p T pT2v_3f_IJn (mk_para (#40.0) (#730.0) (#0.0064) (#0.587) (#0.891) (#0.5) (#1.0) (#4.0)) /\
  pT2v_3g p T = pT2v_sum p T pT2v_3g_IJn (mk_para (#25.0) (#660.0) (#0.0027) (#0.872) (#0.971) (#1.0) (#1.0) (#4.0)) /\
  pT2v_3i p T = pT2v_sum p T pT2v_3i_IJn (mk_para (#25.0) (#660.0) (#0.0041) (#0.910) (#0.984) (#0.5) (#1.0) (#4.0)) /\
  pT2v_3m p T = pT2v_sum p T pT2v_3m_IJn (mk_para (#23.0) (#650.0) (#0.0028) (#1.0) (#0.997) (#1.0) (#0.25) (#1.0)) /\
  pT2v_3n p T = nexp (poly_powi (p / #23.0 - #0.976) (T / #650.0 - #0.997) pT2v_3n_IJn) * #0.0031 /\
  pT2v_3u p T = pT2v_sum p T pT2v_3u_IJn (mk_para (#23.0) (#650.0) (#0.0026) (#0.902) (#0.988) (#1.0) (#1.0) (#1.0)) /\
  pT2v_3v p T = pT2v_sum p T pT2v_3v_IJn (mk_para (#23.0) (#650.0) (#0.0031) (#0.960) (#0.995) (#1.0) (#1.0) (#1.0)).
Proof.
  repeat split; try (apply sum_steps; vis).
Qed.
End Uses.
