(* The region functions of the model over R are the formulas generated by their
   fundamental equation. *)
From Coq Require Import ZArith List Bool Reals Lra Lia.
From Coquelicot Require Import Coquelicot.
From Verif Require Import Num Algo Constant Reg1 Reg2 Reg5 Reg3Td RealInst RealSat Steps RSums Gibbs.
Import ListNotations.
Open Scope R_scope.

Ltac vis := apply splits_all; splits.

(* derivatives of k(c - x) and k(x - c) *)
Lemma dshift_l (k : R -> R) (c x l : R) : is_derive k (c - x) l -> is_derive (fun x => k (c - x)) x (- l).
Proof.
  intros H. eapply dval; [apply (dcomp k (fun x => c - x)); [exact H|]|].
  - apply (dsub (fun _ => c) (fun x => x)); [apply dconst|apply did].
  - cbv beta. ring.
Qed.
Lemma dshift_r (k : R -> R) (c x l : R) : is_derive k (x - c) l -> is_derive (fun x => k (x - c)) x l.
Proof.
  intros H. eapply dval; [apply (dcomp k (fun x => x - c)); [exact H|]|].
  - apply (dsub (fun x => x) (fun _ => c)); [apply did|apply dconst].
  - cbv beta. ring.
Qed.
Lemma dopp (f : R -> R) (x l : R) : is_derive f x l -> is_derive (fun x => - f x) x (- l).
Proof. intros H. apply (is_derive_opp f x l H). Qed.

(* ---------- region 1 ---------- *)
Section R1.
Let t : list (Z * Z * R) := @region1_gfe_IJn RArith.
Definition Gib1 : gibbs := {|
  G_ps := 1653 / 100; G_Ts := 13860 / 10;
  G_0 := fun x y => P t (71/10 - x) (y - 1222/1000);
  G_p := fun x y => - Px t (71/10 - x) (y - 1222/1000);
  G_t := fun x y => Py t (71/10 - x) (y - 1222/1000);
  G_pp := fun x y => Pxx t (71/10 - x) (y - 1222/1000);
  G_pt := fun x y => - Pxy t (71/10 - x) (y - 1222/1000);
  G_tt := fun x y => Pyy t (71/10 - x) (y - 1222/1000) |}.
Lemma Gib1_ok x y : 71/10 - x <> 0 -> y - 1222/1000 <> 0 -> gibbs_ok Gib1 x y.
Proof.
  intros Hx Hy. split; cbn [G_0 G_p G_t G_pp G_pt G_tt Gib1].
  - apply (dshift_l (fun u => P t u (y - 1222/1000))). now apply P_x.
  - apply (dshift_r (fun u => P t (71/10 - x) u)). now apply P_y.
  - eapply dval; [apply dopp, (dshift_l (fun u => Px t u (y - 1222/1000))); now apply Px_x|]. ring.
  - apply dopp, (dshift_r (fun u => Px t (71/10 - x) u)). now apply Px_y.
  - apply (dshift_l (fun u => Py t u (y - 1222/1000))). now apply Py_x.
  - apply (dshift_r (fun u => Py t (71/10 - x) u)). now apply Py_y.
Qed.
Lemma ps1 : G_ps Gib1 = 1653 / 100. Proof. reflexivity. Qed.
Lemma Ts1 : G_Ts Gib1 = 13860 / 10. Proof. reflexivity. Qed.
Ltac fin1 := cbn [G_0 G_p G_t G_pp G_pt G_tt Gib1]; rnum; try reflexivity.
Lemma g1_0 x y : @gamma_reg1 RArith x y = G_0 Gib1 x y.
Proof. unfold gamma_reg1. cbv zeta. rewrite s_P by vis. fin1. Qed.
Lemma g1_p x y : @gamma_pi_reg1 RArith x y = G_p Gib1 x y.
Proof. unfold gamma_pi_reg1. cbv zeta. rewrite s_Px by vis. fin1. Qed.
Lemma g1_t x y : @gamma_tau_reg1 RArith x y = G_t Gib1 x y.
Proof. unfold gamma_tau_reg1. cbv zeta. rewrite s_Py by vis. fin1. Qed.
Lemma g1_pp x y : @gamma_pipi_reg1 RArith x y = G_pp Gib1 x y.
Proof. unfold gamma_pipi_reg1. cbv zeta. rewrite s_Pxx by vis. fin1. Qed.
Lemma g1_tt x y : @gamma_tautau_reg1 RArith x y = G_tt Gib1 x y.
Proof. unfold gamma_tautau_reg1. cbv zeta. rewrite s_Pyy by vis. fin1. Qed.
Section XY.
Variables x y : R.
Hypothesis (Hx : 71/10 - x <> 0) (Hy : y - 1222/1000 <> 0).
Ltac nz := solve [vis | rnum; assumption].
Lemma g1_pt : @gamma_pitau_reg1 RArith x y = G_pt Gib1 x y.
Proof. unfold gamma_pitau_reg1. cbv zeta. rewrite s_Pxy by nz. fin1. Qed.
Lemma g1_i_j : @polys_i_j_powi_reg1 RArith x y = (G_p Gib1 x y, G_t Gib1 x y).
Proof. unfold polys_i_j_powi_reg1. cbv zeta. rewrite s_i_j by nz. fin1. Qed.
Lemma g1_i_ii : @polys_i_ii_powi_reg1 RArith x y = (G_p Gib1 x y, G_pp Gib1 x y).
Proof. unfold polys_i_ii_powi_reg1. cbv zeta. rewrite s_i_ii by nz. fin1. Qed.
Lemma g1_0_j : @polys_0_j_powi_reg1 RArith x y = (G_0 Gib1 x y, G_t Gib1 x y).
Proof. unfold polys_0_j_powi_reg1. cbv zeta. rewrite s_0_j by nz. fin1. Qed.
Lemma g1_i_ij : @polys_i_ij_powi_reg1 RArith x y = (G_p Gib1 x y, G_pt Gib1 x y).
Proof. unfold polys_i_ij_powi_reg1. cbv zeta. rewrite s_i_ij by nz. fin1. Qed.
Lemma g1_4 : @polys_i_ii_ij_jj_powi_reg1 RArith x y = (G_p Gib1 x y, G_pp Gib1 x y, G_pt Gib1 x y, G_tt Gib1 x y).
Proof. unfold polys_i_ii_ij_jj_powi_reg1. cbv zeta. rewrite s_4 by nz. fin1. Qed.
End XY.

Section PT.
Variables p T : R.
Hypothesis (Hp : p <> 0) (HT : T <> 0) (Hx : 71/10 - p/(1653/100) <> 0) (Hy : 13860/10/T - 1222/1000 <> 0).
Ltac open1 :=
  cbv beta zeta delta [RGAS_WATER r1Tstar r1pstar Tt]; rnum;
  rewrite ?g1_0, ?g1_p, ?g1_t, ?g1_pp, ?g1_tt, ?g1_pt, ?g1_i_j, ?g1_i_ii, ?g1_0_j, ?g1_i_ij, ?g1_4 by assumption;
  cbv beta iota zeta; unfold f_v, f_h, f_s, f_u, f_g, f_f, f_cp, f_cv, f_dvdt, f_dvdp, f_kt, f_ec, f_dpdt, f_joule, f_dhdp, f_w2, Rw;
  rewrite ?ps1, ?Ts1.
Ltac atoms := repeat match goal with |- context [?a Gib1 ?b ?c] => let k := fresh "k" in set (k := a Gib1 b c) end;
  repeat match goal with |- context [13860 / 10 / T] => let k := fresh "y" in set (k := 13860 / 10 / T) end; unfold Rdiv.
Lemma v1 : @pT2v_reg1 RArith p T = f_v Gib1 p T.
Proof. unfold pT2v_reg1. open1. field. auto. Qed.
Lemma h1 : @pT2h_reg1 RArith p T = f_h Gib1 p T.
Proof. unfold pT2h_reg1. open1. field. auto. Qed.
Lemma s1 : @pT2s_reg1 RArith p T = f_s Gib1 p T.
Proof. unfold pT2s_reg1. open1. field. auto. Qed.
Lemma u1 : @pT2u_reg1 RArith p T = f_u Gib1 p T.
Proof. unfold pT2u_reg1. open1. field. auto. Qed.
Lemma g1 : @pT2g_reg1 RArith p T = f_g Gib1 p T.
Proof. unfold pT2g_reg1. open1. field. Qed.
Lemma f1 : @pT2f_reg1 RArith p T = f_f Gib1 p T.
Proof. unfold pT2f_reg1. open1. field. Qed.
Lemma cp1 : @pT2cp_reg1 RArith p T = f_cp Gib1 p T.
Proof. unfold pT2cp_reg1. open1. field. auto. Qed.
Lemma cv1 : @pT2cv_reg1 RArith p T = f_cv Gib1 p T.
Proof. unfold pT2cv_reg1. open1. atoms. ring. Qed.
Lemma dvdt1 : @pT2dvdTcp_reg1 RArith p T = f_dvdt Gib1 p T.
Proof. unfold pT2dvdTcp_reg1. open1. field. auto. Qed.
Lemma dvdp1 : @pT2dvdpct_reg1 RArith p T = f_dvdp Gib1 p T.
Proof. unfold pT2dvdpct_reg1. open1. field. Qed.
Lemma dhdp1 : @pT2iJTC_reg1 RArith p T = f_dhdp Gib1 p T / 1000.
Proof. unfold pT2iJTC_reg1. open1. field. Qed.
Lemma e1 : @pT2e_reg1 RArith p T = f_h Gib1 p T - 27316/100 * f_s Gib1 p T.
Proof. unfold pT2e_reg1. open1. field. auto. Qed.
Lemma z1 : @pT2z_reg1 RArith p T = 1000 * p * f_v Gib1 p T / (Rw * T).
Proof. unfold pT2z_reg1. cbv zeta. rewrite v1. cbv delta [RGAS_WATER]. rnum. unfold Rw. field. auto. Qed.
Lemma dpdt1 : @pT2dpdtcv_reg1 RArith p T = f_dpdt Gib1 p T.
Proof. unfold pT2dpdtcv_reg1. open1. unfold Rdiv. ring. Qed.
Lemma pc1 : @pT2pc_reg1 RArith p T = f_dpdt Gib1 p T / p.
Proof. unfold pT2pc_reg1. rewrite dpdt1. rnum. field. exact Hp. Qed.
Lemma kt1 : @pT2kt_reg1 RArith p T = f_kt Gib1 p T.
Proof. unfold pT2kt_reg1. open1. atoms. ring. Qed.
Hypothesis Hv : G_p Gib1 (p/(1653/100)) (13860/10/T) <> 0.
Lemma ec1 : @pT2ec_reg1 RArith p T = f_ec Gib1 p T.
Proof. unfold pT2ec_reg1. open1. field. auto. Qed.
Lemma joule1 : G_tt Gib1 (p/(1653/100)) (13860/10/T) <> 0 -> @pT2joule_reg1 RArith p T = f_joule Gib1 p T.
Proof. intros. unfold pT2joule_reg1. open1. field. auto. Qed.
Lemma w1 : (G_p Gib1 (p/(1653/100)) (13860/10/T) - 13860/10/T * G_pt Gib1 (p/(1653/100)) (13860/10/T)) ^ 2
     / (13860/10/T * (13860/10/T) * G_tt Gib1 (p/(1653/100)) (13860/10/T)) - G_pp Gib1 (p/(1653/100)) (13860/10/T) <> 0 ->
  0 <= f_w2 Gib1 p T -> @pT2w_reg1 RArith p T ^ 2 = f_w2 Gib1 p T.
Proof.
  intros _ H0. unfold pT2w_reg1. revert H0. open1. intros H0.
  match goal with |- (?a * sqrt ?q) ^ 2 = _ => match type of H0 with 0 <= _ * ?b =>
    assert (E : q = b); [apply (f_equal2 Rdiv); [field|atoms; ring]|]; rewrite E; clear E;
    assert (0 <= b) by (replace b with (/ (a * a) * (a ^ 2 * b));
       [apply Rmult_le_pos; [left; apply Rinv_0_lt_compat; nra|exact H0]
       |generalize b; intros; field; auto]);
    rewrite Rpow_mult_distr, <- (Rsqr_pow2 (sqrt _)), Rsqr_sqrt by assumption; reflexivity end end.
Qed.
Lemma alfap1 : @pT2alfap_reg1 RArith p T = f_ec Gib1 p T / p / f_kt Gib1 p T.
Proof. unfold pT2alfap_reg1. now rewrite ec1, kt1. Qed.
Lemma betap1 : @pT2batap_reg1 RArith p T = 1 / (p * f_v Gib1 p T * f_kt Gib1 p T).
Proof. unfold pT2batap_reg1. rewrite v1, kt1. rnum. f_equal; lra. Qed.
End PT.
End R1.

(* ---------- ideal-gas parts of regions 2 and 5 ---------- *)
Definition table0 (J : list Z) (n : list R) : list (Z * Z * R) := combine (map (fun j => (0%Z, j)) J) n.
Lemma nth_table0 J n i : length J = length n ->
  nth i (table0 J n) (0%Z, 0%Z, 0) = (0%Z, nth i J 0%Z, nth i n 0).
Proof.
  intros H. unfold table0. rewrite combine_nth by (now rewrite map_length).
  rewrite (map_nth (fun j => (0%Z, j)) J 0%Z i). reflexivity.
Qed.
Lemma len_table0 J n : length J = length n -> length (table0 J n) = length n.
Proof. intros H. unfold table0. rewrite combine_length, map_length, H. apply Nat.min_id. Qed.

(* sum over the index range of two parallel arrays *)
Lemma fold_ideal J n (g : R -> nat -> R) (f : Z -> R) a : length J = length n ->
  (forall v i, g v i = v + nth i n 0 * f (nth i J 0%Z)) ->
  fold_left g (seq 0 (length n)) a = a + tsum (table0 J n) (fun _ j => f j).
Proof.
  intros H E. rewrite <- (len_table0 J n H).
  pose (h := fun v (e : Z * Z * R) => v + snd e * f (snd (fst e))).
  transitivity (fold_left (fun v i => h v (nth i (table0 J n) (0%Z, 0%Z, 0))) (seq 0 (length (table0 J n))) a).
  - apply fold_ext. intros v i. rewrite E, nth_table0 by exact H. reflexivity.
  - rewrite (fold_nth h). apply (fold_tsum _ (fun _ j => f j)).
Qed.
Lemma tsum0_P J n y : length J = length n -> P (table0 J n) 1 y = tsum (table0 J n) (fun _ j => powerRZ y j).
Proof.
  intros H. unfold P, table0. revert n H. induction J as [|j J IH]; intros [|a n] H; try discriminate; [reflexivity|].
  cbn [map combine]. rewrite !tsum_cons. cbn [fst snd]. rewrite IH by (now inversion H). rewrite powerRZ_O. ring.
Qed.
Lemma tsum0_Py J n y : length J = length n -> Py (table0 J n) 1 y = tsum (table0 J n) (fun _ j => IZR j * powerRZ y (j - 1)).
Proof.
  intros H. unfold Py, table0. revert n H. induction J as [|j J IH]; intros [|a n] H; try discriminate; [reflexivity|].
  cbn [map combine]. rewrite !tsum_cons. cbn [fst snd]. rewrite IH by (now inversion H). rewrite powerRZ_O. ring.
Qed.
Lemma tsum0_y J n y : y <> 0 -> length J = length n ->
  tsum (table0 J n) (fun _ j => IZR j * powerRZ y j) = y * Py (table0 J n) 1 y.
Proof.
  intros Hy H. rewrite tsum0_Py, <- tsum_scal by exact H. apply tsum_ext. intros _ j. rewrite pw_pred by exact Hy. field. exact Hy.
Qed.
Lemma tsum0_Pyy J n y : length J = length n -> Pyy (table0 J n) 1 y = tsum (table0 J n) (fun _ j => IZR (j * (j - 1)) * powerRZ y (j - 2)).
Proof.
  intros H. unfold Pyy, table0. revert n H. induction J as [|j J IH]; intros [|a n] H; try discriminate; [reflexivity|].
  cbn [map combine]. rewrite !tsum_cons. cbn [fst snd]. rewrite IH by (now inversion H). rewrite powerRZ_O, mult_IZR. ring.
Qed.
Lemma d_ln x : 0 < x -> is_derive ln x (1 / x).
Proof. intros H. unfold Rdiv. rewrite Rmult_1_l. now apply is_derive_ln. Qed.

(* ---------- region 2 ---------- *)
Section R2.
Let t : list (Z * Z * R) := @region2_gfe_IJn RArith.
Let t0 := table0 (@region2_gfe_J0) (@region2_gfe_n0 RArith).
Definition Gib2 : gibbs := {|
  G_ps := 1; G_Ts := 5400 / 10;
  G_0 := fun x y => ln x + P t0 1 y + P t x (y - 5/10);
  G_p := fun x y => 10 / 10 / x + Px t x (y - 5/10);
  G_t := fun x y => Py t0 1 y + Py t x (y - 5/10);
  G_pp := fun x y => -10 / 10 / x / x + Pxx t x (y - 5/10);
  G_pt := fun x y => 0 / 10 + Pxy t x (y - 5/10);
  G_tt := fun x y => Pyy t0 1 y + Pyy t x (y - 5/10) |}.
Lemma Gib2_ok x y : 0 < x -> y <> 0 -> y - 5/10 <> 0 -> gibbs_ok Gib2 x y.
Proof.
  intros Hx Hy0 Hy. assert (x <> 0) by lra. split; cbn [G_0 G_p G_t G_pp G_pt G_tt Gib2].
  - apply (dadd (fun x => ln x + P t0 1 y)); [|now apply P_x].
    eapply dval; [apply (dadd ln (fun _ => P t0 1 y)); [now apply d_ln|apply dconst]|field; auto].
  - apply (dadd (fun y => ln x + P t0 1 y) (fun y => P t x (y - 5/10))); [|apply (dshift_r (fun u => P t x u)); now apply P_y].
    eapply dval; [apply (dadd (fun _ => ln x) (fun y => P t0 1 y)); [apply dconst|now apply P_y]|ring].
  - eapply dval; [apply (dadd (fun x => 10 / 10 / x)); [now apply dinvc|now apply Px_x]|field; auto].
  - eapply dval; [apply (dadd (fun _ => 10 / 10 / x) (fun y => Px t x (y - 5/10))); [apply dconst|apply (dshift_r (fun u => Px t x u)); now apply Px_y]|lra].
  - eapply dval; [apply (dadd (fun _ => Py t0 1 y)); [apply dconst|now apply Py_x]|lra].
  - apply (dadd (fun y => Py t0 1 y) (fun y => Py t x (y - 5/10))); [now apply Py_y|apply (dshift_r (fun u => Py t x u)); now apply Py_y].
Qed.
Lemma ps2 : G_ps Gib2 = 1. Proof. reflexivity. Qed.
Lemma Ts2 : G_Ts Gib2 = 5400 / 10. Proof. reflexivity. Qed.
Lemma fold3 (h k : nat -> R) l : forall it a b,
  let r := fold_left (fun '(it, a, b) i => (h i, a + h i, b + h i * k i)) l (it, a, b) in
  snd (fst r) = fold_left (fun a i => a + h i) l a /\ snd r = fold_left (fun b i => b + h i * k i) l b.
Proof. induction l as [|i l IH]; intros it a b; cbn [fold_left]; [split; reflexivity|]. apply IH. Qed.
Lemma id2_0 x y : @gamma0_reg2 RArith x y = ln x + P t0 1 y.
Proof.
  unfold gamma0_reg2, t0. cbv zeta. rewrite tsum0_P by reflexivity.
  apply (fold_ideal region2_gfe_J0 (@region2_gfe_n0 RArith) _ (powerRZ y)); [reflexivity|].
  intros. rnum. repeat f_equal; lra.
Qed.
Lemma id2_t y : @gamma0_tau_reg2 RArith y = Py t0 1 y.
Proof.
  unfold gamma0_tau_reg2, t0. cbv zeta. rewrite tsum0_Py by reflexivity.
  etransitivity; [apply (fold_ideal region2_gfe_J0 (@region2_gfe_n0 RArith) _ (fun j => IZR j * powerRZ y (j - 1))); [reflexivity|]|].
  - intros. rnum. rewrite Rmult_assoc. repeat f_equal; lra.
  - rnum. lra.
Qed.
Lemma id2_tt x y : @gamma0_tautau_reg2 RArith x y = Pyy t0 1 y.
Proof.
  unfold gamma0_tautau_reg2, t0. cbv zeta. rewrite tsum0_Pyy by reflexivity.
  etransitivity; [apply (fold_ideal region2_gfe_J0 (@region2_gfe_n0 RArith) _ (fun j => IZR (j * (j - 1)) * powerRZ y (j - 2))); [reflexivity|]|].
  - intros. cbn [ofZ RArith]. rnum. rewrite Rmult_assoc. repeat f_equal; lra.
  - rnum. lra.
Qed.

Ltac fin2 := rnum; reflexivity.
Lemma g2_0 x y : @gammar_reg2 RArith x y = P t x (y - 5/10).
Proof. unfold gammar_reg2. cbv zeta. rewrite s_P by vis. fin2. Qed.
Lemma g2_p x y : @gammar_pi_reg2 RArith x y = Px t x (y - 5/10).
Proof. unfold gammar_pi_reg2. cbv zeta. rewrite s_Px by vis. fin2. Qed.
Lemma g2_t x y : @gammar_tau_reg2 RArith x y = Py t x (y - 5/10).
Proof. unfold gammar_tau_reg2. cbv zeta. rewrite s_Py by vis. fin2. Qed.
Lemma g2_pp x y : @gammar_pipi_reg2 RArith x y = Pxx t x (y - 5/10).
Proof. unfold gammar_pipi_reg2. cbv zeta. rewrite s_Pxx by vis. fin2. Qed.
Lemma g2_tt x y : @gammar_tautau_reg2 RArith x y = Pyy t x (y - 5/10).
Proof. unfold gammar_tautau_reg2. cbv zeta. rewrite s_Pyy by vis. fin2. Qed.
Section XY.
Variables x y : R.
Hypothesis (Hx : x <> 0) (Hy : y - 5/10 <> 0).
Ltac nz := solve [vis | rnum; assumption].
Lemma g2_pt : @gammar_pitau_reg2 RArith x y = Pxy t x (y - 5/10).
Proof. unfold gammar_pitau_reg2. cbv zeta. rewrite s_Pxy by nz. fin2. Qed.
Lemma g2_i_j : @polys_i_j_powi_reg2 RArith x y = (Px t x (y - 5/10), Py t x (y - 5/10)).
Proof. unfold polys_i_j_powi_reg2. cbv zeta. rewrite s_i_j by nz. fin2. Qed.
Lemma g2_0_j : @polys_0_j_powi_reg2 RArith x y = (P t x (y - 5/10), Py t x (y - 5/10)).
Proof. unfold polys_0_j_powi_reg2. cbv zeta. rewrite s_0_j by nz. fin2. Qed.
Lemma g2_4 : @polys_i_ii_ij_jj_powi_reg2 RArith x y =
  (Px t x (y - 5/10), Pxx t x (y - 5/10), Pxy t x (y - 5/10), Pyy t x (y - 5/10)).
Proof. unfold polys_i_ii_ij_jj_powi_reg2. cbv zeta. rewrite s_4 by nz. fin2. Qed.
End XY.

Section PT.
Variables p T : R.
Hypothesis (Hp : p <> 0) (HT : T <> 0) (Hy : 5400/10/T - 5/10 <> 0).
Lemma Hy0_2 : 5400/10/T <> 0.
Proof. unfold Rdiv. apply Rmult_integral_contrapositive_currified; [lra|now apply Rinv_neq_0_compat]. Qed.
Lemma Hpi_2 : (p/1) <> 0.
Proof. unfold Rdiv. apply Rmult_integral_contrapositive_currified; [exact Hp|apply Rinv_neq_0_compat; lra]. Qed.
Ltac open2 := pose proof Hy0_2 as Hy0; pose proof Hpi_2 as Hpi;
  cbv beta zeta delta [RGAS_WATER r2Tstar r5Pstar Tt gamma0_pi_reg2 gamma0_pipi_reg2 gamma0_pitau_reg2]; rnum;
  replace p with (p/1) by field;
  rewrite ?g2_0, ?g2_p, ?g2_t, ?g2_pp, ?g2_tt, ?g2_pt, ?g2_i_j, ?g2_0_j, ?g2_4, ?id2_0, ?id2_t, ?id2_tt by assumption;
  cbv beta iota zeta; unfold f_v, f_h, f_s, f_u, f_g, f_f, f_cp, f_cv, f_dvdt, f_dvdp, f_kt, f_ec, f_dpdt, f_joule, f_dhdp, f_w2, Rw;
  rewrite ?ps2, ?Ts2; replace (p/1/1) with (p/1) by field; cbn [G_0 G_p G_t G_pp G_pt G_tt Gib2].

Lemma v2 : @pT2v_reg2 RArith p T = f_v Gib2 p T.
Proof. unfold pT2v_reg2. open2. field. auto. Qed.
Lemma h2 : @pT2h_reg2 RArith p T = f_h Gib2 p T.
Proof. unfold pT2h_reg2. open2. field. Qed.
Lemma u2 : @pT2u_reg2 RArith p T = f_u Gib2 p T.
Proof. unfold pT2u_reg2. open2. field. auto. Qed.
Lemma g2 : @pT2g_reg2 RArith p T = f_g Gib2 p T.
Proof. unfold pT2g_reg2. open2. field. Qed.
Lemma f2 : @pT2f_reg2 RArith p T = f_f Gib2 p T.
Proof. unfold pT2f_reg2. open2. field. auto. Qed.
Lemma cp2 : @pT2cp_reg2 RArith p T = f_cp Gib2 p T.
Proof. unfold pT2cp_reg2. open2. field. auto. Qed.
Lemma s2 : @pT2s_reg2 RArith p T = f_s Gib2 p T.
Proof.
  unfold pT2s_reg2. cbv zeta.
  destruct (fold3 (fun i => @mul RArith (nth i (@region2_gfe_n0 RArith) (@lit RArith 0.0)) (@powi RArith (@div RArith r2Tstar T) (nth i region2_gfe_J0 0%Z)))
     (fun i => IZR (nth i region2_gfe_J0 0%Z)) (seq 0 9) (@lit RArith 0.0) (ln p) (@lit RArith 0.0)) as [A B].
  match type of A with snd (fst ?r) = _ => change (fold_left _ (seq 0 9) (@lit RArith 0.0, @nln RArith p, @lit RArith 0.0)) with r;
    destruct r as [[it a] b] end.
  cbn [fst snd] in A, B.
  change (a = @gamma0_reg2 RArith p (@div RArith r2Tstar T)) in A. rewrite id2_0 in A.
  rewrite (fold_ideal region2_gfe_J0 (@region2_gfe_n0 RArith) _ (fun j => IZR j * powerRZ (@div RArith r2Tstar T) j)) in B;
    [|reflexivity|intros; rnum; replace (0/10) with 0 by lra; ring].
  rewrite tsum0_y in B; [|cbv delta [r2Tstar]; rnum; apply Hy0_2|reflexivity].
  fold t0 in B. revert A B. open2. intros -> ->. field. auto.
Qed.
Lemma dvdt2 : @pT2dvdtcp_reg2 RArith p T = f_dvdt Gib2 p T.
Proof. unfold pT2dvdtcp_reg2. open2. field; auto. Qed.
Lemma dvdp2 : @pT2dvdpct_reg2 RArith p T = f_dvdp Gib2 p T.
Proof. unfold pT2dvdpct_reg2. open2. field; auto. Qed.
Lemma dhdp2 : @pT2iJTC_reg2 RArith p T = f_dhdp Gib2 p T / 1000.
Proof. unfold pT2iJTC_reg2. open2. field; auto. Qed.
Lemma e2 : @pT2e_reg2 RArith p T = f_h Gib2 p T - 27316/100 * f_s Gib2 p T.
Proof. unfold pT2e_reg2. open2. field; auto. Qed.
Lemma z2 : @pT2z_reg2 RArith p T = 1000 * p * f_v Gib2 p T / (Rw * T).
Proof. unfold pT2z_reg2. cbv zeta. rewrite v2. cbv delta [RGAS_WATER]. rnum. unfold Rw. field; auto. Qed.
Lemma dpdt2 : @pT2dpdtcv_reg2 RArith p T = f_dpdt Gib2 p T.
Proof.
  unfold pT2dpdtcv_reg2. open2. unfold Rdiv. apply (f_equal2 Rmult); [field; auto|reflexivity].
Qed.
Lemma pc2 : @pT2pc_reg2 RArith p T = f_dpdt Gib2 p T / p.
Proof. unfold pT2pc_reg2. rewrite dpdt2. rnum. field; auto. Qed.
Let gp := G_p Gib2 (p/1) (5400/10/T).
Let gpp := G_pp Gib2 (p/1) (5400/10/T).
Let gpt := G_pt Gib2 (p/1) (5400/10/T).
Let gtt := G_tt Gib2 (p/1) (5400/10/T).
Hypothesis Hv : gp <> 0.
Lemma kt2 : @pT2kt_reg2 RArith p T = f_kt Gib2 p T.
Proof.
  revert Hv. unfold gp. unfold pT2kt_reg2. open2. intros Hv'.
  match goal with |- - (?a / ?b) = - (?c / ?d) / ?e => generalize dependent b; generalize a end.
  intros. field. auto.
Qed.
Lemma ec2 : @pT2ec_reg2 RArith p T = f_ec Gib2 p T.
Proof.
  unfold pT2ec_reg2. cbv zeta. rewrite v2, dvdt2. rewrite (i_ec Gib2); rewrite ?ps2, ?Ts2; try assumption; try lra. rnum.
  unfold Rdiv. lra.
Qed.
Lemma joule2 : gtt <> 0 -> @pT2joule_reg2 RArith p T = f_joule Gib2 p T.
Proof.
  intros Ht. revert Ht Hv. unfold gtt, gp. unfold pT2joule_reg2. open2. intros Ht Hv'.
  generalize dependent (10 / 10 / (p/1) + Px t (p/1) ((5400/10/T) - 5/10)). intros.
  generalize dependent (Pyy t0 1 (5400/10/T) + Pyy t (p/1) ((5400/10/T) - 5/10)). intros.
  generalize (0 / 10 + Pxy t (p/1) ((5400/10/T) - 5/10)). intros. field. auto.
Qed.
Lemma alfap2 : @pT2alfap_reg2 RArith p T = f_ec Gib2 p T / p / f_kt Gib2 p T.
Proof. unfold pT2alfap_reg2. now rewrite ec2, kt2. Qed.
Lemma betap2 : @pT2batap_reg2 RArith p T = 1 / (p * f_v Gib2 p T * f_kt Gib2 p T).
Proof. unfold pT2batap_reg2. rewrite v2, kt2. rnum. f_equal; lra. Qed.
Lemma den2 : gpp <> 0 -> 1 - (p/1) * (p/1) * Pxx t (p/1) ((5400/10/T) - 5/10) <> 0.
Proof.
  unfold gpp. cbn [G_pp Gib2]. intros H E. apply H. pose proof Hpi_2.
  replace (Pxx t (p/1) ((5400/10/T) - 5/10)) with (1 / ((p/1) * (p/1))); [field; auto|].
  apply (Rmult_eq_reg_l ((p/1) * (p/1))); [|now apply Rmult_integral_contrapositive_currified].
  transitivity 1; [field; auto|lra].
Qed.
Lemma cv2 : gpp <> 0 -> @pT2cv_reg2 RArith p T = f_cv Gib2 p T.
Proof.
  intros Hpp. pose proof (den2 Hpp) as D. revert D Hpp. unfold gpp. unfold pT2cv_reg2. open2. clear gp gpt gtt gpp Hv. intros D Hpp.
  generalize dependent (Px t (p/1) ((5400/10/T) - 5/10)).
  generalize dependent (Pxx t (p/1) ((5400/10/T) - 5/10)).
  generalize dependent (Pyy t0 1 (5400/10/T) + Pyy t (p/1) ((5400/10/T) - 5/10)).
  generalize dependent (Pxy t (p/1) ((5400/10/T) - 5/10)).
  generalize dependent (p/1). generalize dependent (5400/10/T). intros.
  replace (-10/10) with (-1) in * by lra; replace (10/10) with 1 in * by lra. field. repeat split; auto; intros E; apply D; lra.

Qed.
Lemma w2 : gtt <> 0 -> (gp - (5400/10/T) * gpt) ^ 2 / ((5400/10/T) * (5400/10/T) * gtt) - gpp <> 0 ->
  0 <= f_w2 Gib2 p T -> @pT2w_reg2 RArith p T ^ 2 = f_w2 Gib2 p T.
Proof.
  intros Ht D. unfold pT2w_reg2. revert Ht D Hv. unfold gp, gpp, gtt, gpt. open2. clear gp gpt gtt gpp. intros Ht D _ H0.
  match type of H0 with 0 <= ?r => match goal with |- sqrt ?q ^ 2 = _ => assert (E : q = r) end end;
    [|rewrite E, <- Rsqr_pow2, Rsqr_sqrt by exact H0; reflexivity]. clear H0 Hy.
  generalize dependent (Px t (p/1) ((5400/10/T) - 5/10)).
  generalize dependent (Pxx t (p/1) ((5400/10/T) - 5/10)).
  generalize dependent (Pyy t0 1 (5400/10/T) + Pyy t (p/1) ((5400/10/T) - 5/10)).
  generalize dependent (Pxy t (p/1) ((5400/10/T) - 5/10)).
  generalize dependent (p/1). generalize dependent (5400/10/T). intros y Hy0 x Hx xy tt Ht xx px D.
  replace (-10/10) with (-1) in * by lra; replace (10/10) with 1 in * by lra.
  assert (D' : (1 + x * px - y * x * xy) ^ 2 + y * y * tt * (1 - x * x * xx) <> 0).
  { intros E. apply D. replace ((1 / x + px - y * (0 / 10 + xy)) ^ 2) with ((1 + x * px - y * x * xy) ^ 2 / (x * x)) by (field; auto).
    replace ((1 + x * px - y * x * xy) ^ 2) with (- (y * y * tt * (1 - x * x * xx))) by lra. field. auto. }
  field. repeat split; auto; intros E; apply D'; lra.
Qed.
End PT.
End R2.
