(* C19, C20, C45: the table sums and the subregions of region 3. *)
From Coq Require Import ZArith List Bool Reals Lra.
From Verif Require Import Num Types Algo Constant Reg1 Reg2 Reg3Td Reg2Back Reg3Sub Reg3V Api RealInst Spec SpecReal
  SpecSums SpecSub3 SumUses Sub3.
Import ListNotations.

(* C19: for every arithmetic, every table and every gap-free list of steps covering it,
   summing in steps performs exactly the additions of the plain loop *)
Theorem C19_steps : forall (N : Arith) (vi vj : num) (t : list (Z * Z * num)) (steps : list (nat * nat)),
  covers 0 steps (length t) ->
  poly_powi_steps vi vj t steps = poly_powi vi vj t /\
  poly_i_powi_steps vi vj t steps = poly_i_powi vi vj t /\
  poly_ii_powi_steps vi vj t steps = poly_ii_powi vi vj t /\
  poly_j_powi_steps vi vj t steps = poly_j_powi vi vj t /\
  poly_jj_powi_steps vi vj t steps = poly_jj_powi vi vj t /\
  polys_0_j_powi_steps vi vj t steps = polys_0_j_powi vi vj t /\
  polys_i_j_powi_steps vi vj t steps = polys_i_j_powi vi vj t /\
  polys_i_ii_ij_jj_powi_steps vi vj t steps = polys_i_ii_ij_jj_powi vi vj t.
Proof. exact @steps_all. Qed.
Print Assumptions C19_steps.
Example C19_example : (covers 0 [(0, 2); (2, 2); (2, 5)] 5)%nat.
Proof. repeat (constructor; auto). Qed.

(* in exact arithmetic they are the mathematical sums and derivative sums over the table *)
Theorem C19_exact : forall (x y : R) (t : list (Z * Z * R)) (steps : list (nat * nat)), covers 0 steps (length t) ->
  (@poly_powi_steps RArith x y t steps = table_sum t (fun i j => powerRZ x i * powerRZ y j) /\
  @poly_i_powi_steps RArith x y t steps = table_sum t (fun i j => IZR i * powerRZ x (i - 1) * powerRZ y j) /\
  @poly_ii_powi_steps RArith x y t steps = table_sum t (fun i j => IZR i * (IZR (i - 1) * powerRZ x (i - 2)) * powerRZ y j) /\
  @poly_j_powi_steps RArith x y t steps = table_sum t (fun i j => powerRZ x i * (IZR j * powerRZ y (j - 1))) /\
  @poly_jj_powi_steps RArith x y t steps = table_sum t (fun i j => powerRZ x i * (IZR j * (IZR (j - 1) * powerRZ y (j - 2)))))%R.
Proof. exact exact_1. Qed.
Print Assumptions C19_exact.
(* the combined sums reuse the power of the argument, so they need a non-zero argument *)
Theorem C19_exact_combined : forall (x y : R) (t : list (Z * Z * R)) (steps : list (nat * nat)), covers 0 steps (length t) ->
  (x <> 0 -> y <> 0 ->
  let i1 := table_sum t (fun i j => IZR i * powerRZ x (i - 1) * powerRZ y j) in
  let j1 := table_sum t (fun i j => powerRZ x i * (IZR j * powerRZ y (j - 1))) in
  let ii := table_sum t (fun i j => IZR i * (IZR (i - 1) * powerRZ x (i - 2)) * powerRZ y j) in
  let ij := table_sum t (fun i j => IZR i * powerRZ x (i - 1) * (IZR j * powerRZ y (j - 1))) in
  let jj := table_sum t (fun i j => powerRZ x i * (IZR j * (IZR (j - 1) * powerRZ y (j - 2)))) in
  @poly_ij_powi_steps RArith x y t steps = ij /\
  @polys_0_j_powi_steps RArith x y t steps = (table_sum t (fun i j => powerRZ x i * powerRZ y j), j1) /\
  @polys_i_j_powi_steps RArith x y t steps = (i1, j1) /\
  @polys_i_ij_powi_steps RArith x y t steps = (i1, ij) /\
  @polys_i_ii_powi_steps RArith x y t steps = (i1, ii) /\
  @polys_i_ii_ij_jj_powi_steps RArith x y t steps = (i1, ii, ij, jj))%R.
Proof. exact exact_2. Qed.
Print Assumptions C19_exact_combined.

(* every use of summation in steps runs over its whole table (except 3l, C20) *)
Theorem C19_region1 : forall (N : Arith) (pi tau : num),
  let x := (#7.1 - pi)%num in let y := (tau - #1.222)%num in let t := region1_gfe_IJn in
  (gamma_reg1 pi tau = poly_powi x y t /\
  gamma_pi_reg1 pi tau = - poly_i_powi x y t /\
  gamma_pipi_reg1 pi tau = poly_ii_powi x y t /\
  gamma_tau_reg1 pi tau = poly_j_powi x y t /\
  gamma_tautau_reg1 pi tau = poly_jj_powi x y t /\
  polys_0_j_powi_reg1 pi tau = polys_0_j_powi x y t /\
  polys_i_j_powi_reg1 pi tau = (let '(a, b) := polys_i_j_powi x y t in (- a, b)) /\
  polys_i_ii_ij_jj_powi_reg1 pi tau = (let '(a, b, c, d) := polys_i_ii_ij_jj_powi x y t in (- a, b, - c, d)))%num.
Proof. exact @uses_reg1. Qed.
Print Assumptions C19_region1.
Theorem C19_region2 : forall (N : Arith) (pi tau : num), let y := (tau - #0.5)%num in let t := region2_gfe_IJn in
  gammar_reg2 pi tau = poly_powi pi y t /\
  gammar_pi_reg2 pi tau = poly_i_powi pi y t /\
  gammar_pipi_reg2 pi tau = poly_ii_powi pi y t /\
  gammar_tau_reg2 pi tau = poly_j_powi pi y t /\
  gammar_tautau_reg2 pi tau = poly_jj_powi pi y t /\
  polys_0_j_powi_reg2 pi tau = polys_0_j_powi pi y t /\
  polys_i_j_powi_reg2 pi tau = polys_i_j_powi pi y t /\
  polys_i_ii_ij_jj_powi_reg2 pi tau = polys_i_ii_ij_jj_powi pi y t.
Proof. exact @uses_reg2. Qed.
Print Assumptions C19_region2.
Theorem C19_region3 : forall (N : Arith) (x y : num), let t := region3_hfe_IJn in let n1 := region3_hfe_n1 in
  (phi_reg3 x y = n1 * nln x + poly_powi x y t /\
  phi_delta_reg3 x y = n1 / x + poly_i_powi x y t /\
  phi_deltadelta_reg3 x y = (- n1) / x / x + poly_ii_powi x y t /\
  phi_tau_reg3 x y = poly_j_powi x y t /\
  phi_tautau_reg3 x y = poly_jj_powi x y t /\
  polys_0_j_powi_reg3 x y = (let '(a, b) := polys_0_j_powi x y t in (a + n1 * nln x, b)) /\
  polys_i_j_powi_reg3 x y = (let '(a, b) := polys_i_j_powi x y t in (a + n1 / x, b)) /\
  polys_i_ii_ij_jj_powi_reg3 x y =
    (let '(a, b, c, d) := polys_i_ii_ij_jj_powi x y t in (n1 / x + a, (- n1) / x / x + b, c, d)))%num.
Proof. exact @uses_reg3. Qed.
Print Assumptions C19_region3.
Theorem C19_rest : forall (N : Arith) (pi tau : num),
  (gamma_pitau_reg1 pi tau = - poly_ij_powi_steps (#7.1 - pi) (tau - #1.222) region1_gfe_IJn [(0%nat, length (@region1_gfe_IJn N))] /\
  polys_i_ii_powi_reg1 pi tau =
    (let '(a, b) := polys_i_ii_powi_steps (#7.1 - pi) (tau - #1.222) region1_gfe_IJn [(0%nat, length (@region1_gfe_IJn N))] in (- a, b)) /\
  polys_i_ij_powi_reg1 pi tau =
    (let '(a, b) := polys_i_ij_powi_steps (#7.1 - pi) (tau - #1.222) region1_gfe_IJn [(0%nat, length (@region1_gfe_IJn N))] in (- a, - b)) /\
  gammar_pitau_reg2 pi tau = poly_ij_powi_steps pi (tau - #0.5) region2_gfe_IJn [(0%nat, length (@region2_gfe_IJn N))] /\
  phi_deltatau_reg3 pi tau = poly_ij_powi_steps pi tau region3_hfe_IJn [(0%nat, length (@region3_hfe_IJn N))])%num.
Proof. exact @covered_rest. Qed.
Print Assumptions C19_rest.
Theorem C19_backward : forall (N : Arith) (p h : num),
  (ph2T_reg2b p h = #1.0 * poly_powi (p / #1.0 - #2.0) (h / #2000.0 - #2.6) ph2T_reg2b_IJn /\
  ps2T_reg2b p h = #1.0 * poly_powi (p / #1.0) (#10.0 - h / #0.7853) ps2T_reg2b_IJn)%num.
Proof. exact @uses_back. Qed.
Print Assumptions C19_backward.
Theorem C19_subregions : forall (N : Arith) (p T : num),
  (pT2v_3d p T = pT2v_sum p T pT2v_3d_IJn (mk_para (#40.0) (#690.0) (#0.0029) (#0.559) (#0.939) (#1.0) (#1.0) (#4.0)) /\
  pT2v_3f p T = pT2v_sum p T pT2v_3f_IJn (mk_para (#40.0) (#730.0) (#0.0064) (#0.587) (#0.891) (#0.5) (#1.0) (#4.0)) /\
  pT2v_3g p T = pT2v_sum p T pT2v_3g_IJn (mk_para (#25.0) (#660.0) (#0.0027) (#0.872) (#0.971) (#1.0) (#1.0) (#4.0)) /\
  pT2v_3i p T = pT2v_sum p T pT2v_3i_IJn (mk_para (#25.0) (#660.0) (#0.0041) (#0.910) (#0.984) (#0.5) (#1.0) (#4.0)) /\
  pT2v_3m p T = pT2v_sum p T pT2v_3m_IJn (mk_para (#23.0) (#650.0) (#0.0028) (#1.0) (#0.997) (#1.0) (#0.25) (#1.0)) /\
  pT2v_3n p T = nexp (poly_powi (p / #23.0 - #0.976) (T / #650.0 - #0.997) pT2v_3n_IJn) * #0.0031 /\
  pT2v_3u p T = pT2v_sum p T pT2v_3u_IJn (mk_para (#23.0) (#650.0) (#0.0026) (#0.902) (#0.988) (#1.0) (#1.0) (#1.0)) /\
  pT2v_3v p T = pT2v_sum p T pT2v_3v_IJn (mk_para (#23.0) (#650.0) (#0.0031) (#0.960) (#0.995) (#1.0) (#1.0) (#1.0)))%num.
Proof. exact @uses_sub. Qed.
Print Assumptions C19_subregions.

(* C20: exactly the last of the 43 terms is missing in 3l, for every p and T *)
Theorem C20_dropped : forall p T : R,
  (let p1 := p / 24 - 0.908 in let t1 := T / 650 - 0.989 in
  let full := table_sum (@pT2v_3l_IJn RArith) (fun i j => powerRZ p1 i * powerRZ t1 j) in
  @pT2v_3l RArith p T = R_powf (full - 642794932373694e18 * p1 ^ 14 * t1 ^ 10) 4 * 0.0026 /\
  @pT2v_sum RArith p T pT2v_3l_IJn d3l = R_powf full 4 * 0.0026)%R.
Proof. exact v3l. Qed.
Print Assumptions C20_dropped.
(* full statement, false: pT2v_3l p T = pT2v_sum p T pT2v_3l_IJn d3l throughout 3l *)
Theorem C20_full_table_refuted : exists p T : R, in_subregion sub_l p T /\ @sub_region3_pT RArith p T = sub_l /\
  (0.002308 < @pT2v_3l RArith p T < 0.00231 /\ 0.002314 < @pT2v_sum RArith p T pT2v_3l_IJn d3l < 0.002316)%R.
Proof. exact (ex_intro _ _ (ex_intro _ _ l_point)). Qed.
Print Assumptions C20_full_table_refuted.

(* C45: outside the strip the search agrees with the release *)
Theorem C45_subregion : forall p T : R, (16 <= p <= 100)%R ->
  (p643 < p <= 22.5 -> T3cd p < T <= T3jk p)%R ->
  in_subregion (@sub_region3_pT RArith p T) p T.
Proof. exact sub_ok. Qed.
Print Assumptions C45_subregion.
Example C45_example : (16 <= 30 <= 100)%R /\ (p643 < 30 <= 22.5 -> T3cd 30 < 700 <= T3jk 30)%R.
Proof. split; [lra|]. intros [_ H]. lra. Qed.
(* in the strip c and k are never chosen, for any temperature *)
Theorem C45_strip : forall p T : R, (p643 < p <= 22.5)%R ->
  @sub_region3_pT RArith p T <> sub_c /\ @sub_region3_pT RArith p T <> sub_k.
Proof. exact never_ck. Qed.
Print Assumptions C45_strip.
(* so pt(22.3 MPa, 356.85 C, OV) answers more than 14000 m3/kg where the equation of 3c gives 0.0017 *)
Theorem C45_subregion_c_refuted : exists p t : R, in_subregion sub_c p (t + 273.15)%R /\
  (0.0017 < @pT2v_3c RArith p (t + 273.15)%R < 0.0018)%R /\
  forall fuel, exists v, @call RArith fuel PT p t (from_i32 OV) = Some v /\ (14000 < v)%R.
Proof. exact refuted_c. Qed.
Print Assumptions C45_subregion_c_refuted.
(* and pt(22.3 MPa, 386.85 C, OV) a negative volume *)
Theorem C45_subregion_k_refuted : exists p t : R, in_subregion sub_k p (t + 273.15)%R /\
  (0.0067 < @pT2v_3k RArith p (t + 273.15)%R < 0.0068)%R /\
  forall fuel, exists v, @call RArith fuel PT p t (from_i32 OV) = Some v /\ (v < -2000)%R.
Proof. exact refuted_k. Qed.
Print Assumptions C45_subregion_k_refuted.
