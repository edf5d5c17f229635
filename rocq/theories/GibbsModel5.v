(* Region 5 of the model over R against its fundamental equation. *)
From Coq Require Import ZArith List Bool Reals Lra Lia.
From Coquelicot Require Import Coquelicot.
From Verif Require Import Num Algo Constant Reg5 RealInst RealSat RegionMap Steps RSums Gibbs GibbsModel.
Import ListNotations.
Open Scope R_scope.
(* ---------- region 5 ---------- *)
Section R5.
Let t : list (Z * Z * R) := @region5_gfe_IJn RArith.
Let t0 := table0 (@region5_gfe_Jo) (@region5_gfe_no RArith).
Definition Gib5 : gibbs := {|
  G_ps := 10 / 10; G_Ts := 10000 / 10;
  G_0 := fun x y => ln x + P t0 1 y + P t x (y);
  G_p := fun x y => 10 / 10 / x + Px t x (y);
  G_t := fun x y => Py t0 1 y + Py t x (y);
  G_pp := fun x y => -10 / 10 / x / x + Pxx t x (y);
  G_pt := fun x y => 0 / 10 + Pxy t x (y);
  G_tt := fun x y => Pyy t0 1 y + Pyy t x (y) |}.
Lemma Gib5_ok x y : 0 < x -> y <> 0 -> gibbs_ok Gib5 x y.
Proof.
  intros Hx Hy. assert (x <> 0) by lra. split; cbn [G_0 G_p G_t G_pp G_pt G_tt Gib5].
  - apply (dadd (fun x => ln x + P t0 1 y)); [|now apply P_x].
    eapply dval; [apply (dadd ln (fun _ => P t0 1 y)); [now apply d_ln|apply dconst]|field; auto].
  - apply (dadd (fun y => ln x + P t0 1 y) (fun y => P t x (y))); [|now apply P_y].
    eapply dval; [apply (dadd (fun _ => ln x) (fun y => P t0 1 y)); [apply dconst|now apply P_y]|ring].
  - eapply dval; [apply (dadd (fun x => 10 / 10 / x)); [now apply dinvc|now apply Px_x]|field; auto].
  - eapply dval; [apply (dadd (fun _ => 10 / 10 / x) (fun y => Px t x (y))); [apply dconst|now apply Px_y]|lra].
  - eapply dval; [apply (dadd (fun _ => Py t0 1 y)); [apply dconst|now apply Py_x]|lra].
  - apply (dadd (fun y => Py t0 1 y) (fun y => Py t x (y))); [now apply Py_y|now apply Py_y].
Qed.
Lemma ps5 : G_ps Gib5 = 10 / 10. Proof. reflexivity. Qed.
Lemma Ts5 : G_Ts Gib5 = 10000 / 10. Proof. reflexivity. Qed.
Lemma id5_0 x y : @gamma0_reg5 RArith x y = ln x + P t0 1 y.
Proof.
  unfold gamma0_reg5, t0. cbv zeta. rewrite tsum0_P by reflexivity.
  apply (fold_ideal region5_gfe_Jo (@region5_gfe_no RArith) _ (powerRZ y)); [reflexivity|].
  intros. rnum. repeat f_equal; lra.
Qed.
Lemma id5_t y : @gamma0_tau_reg5 RArith y = Py t0 1 y.
Proof.
  unfold gamma0_tau_reg5, t0. cbv zeta. rewrite tsum0_Py by reflexivity.
  etransitivity; [apply (fold_ideal region5_gfe_Jo (@region5_gfe_no RArith) _ (fun j => IZR j * powerRZ y (j - 1))); [reflexivity|]|].
  - intros. rnum. rewrite Rmult_assoc. repeat f_equal; lra.
  - rnum. lra.
Qed.
Lemma id5_tt y : @gamma0_tautau_reg5 RArith y = Pyy t0 1 y.
Proof.
  unfold gamma0_tautau_reg5, t0. cbv zeta. rewrite tsum0_Pyy by reflexivity.
  etransitivity; [apply (fold_ideal region5_gfe_Jo (@region5_gfe_no RArith) _ (fun j => IZR (j * (j - 1)) * powerRZ y (j - 2))); [reflexivity|]|].
  - intros. cbn [ofZ RArith]. rnum. rewrite Rmult_assoc. repeat f_equal; lra.
  - rnum. lra.
Qed.


Lemma g5_0 x y : @gammar_reg5 RArith x y = P t x y.
Proof. exact (poly_powi_P t x y). Qed.
Lemma g5_p x y : @gammar_pi_reg5 RArith x y = Px t x y.
Proof. exact (poly_i_powi_P t x y). Qed.
Lemma g5_t x y : @gammar_tau_reg5 RArith x y = Py t x y.
Proof. exact (poly_j_powi_P t x y). Qed.
Lemma g5_pp x y : @gammar_pipi_reg5 RArith x y = Pxx t x y.
Proof. exact (poly_ii_powi_P t x y). Qed.
Lemma g5_tt x y : @gammar_tautau_reg5 RArith x y = Pyy t x y.
Proof. exact (poly_jj_powi_P t x y). Qed.
Lemma g5_pt x y : @gammar_pitau_reg5 RArith x y = Pxy t x y.
Proof. exact (poly_ij_powi_P t x y). Qed.
Lemma g5_0_j x y : x <> 0 -> y <> 0 -> @polys_0_j_powi RArith x y (@region5_gfe_IJn RArith) = (P t x y, Py t x y).
Proof. intros. now apply polys_0_j_P. Qed.
Lemma g5_i_j x y : x <> 0 -> y <> 0 -> @polys_i_j_powi RArith x y (@region5_gfe_IJn RArith) = (Px t x y, Py t x y).
Proof. intros. now apply polys_i_j_P. Qed.
Lemma g5_4 x y : x <> 0 -> y <> 0 -> @polys_i_ii_ij_jj_powi RArith x y (@region5_gfe_IJn RArith) = (Px t x y, Pxx t x y, Pxy t x y, Pyy t x y).
Proof. intros. now apply polys_4_P. Qed.

Section PT.
Variables p T : R.
Hypothesis (Hp : p <> 0) (HT : T <> 0).
Lemma Hy0_5 : 10000/10/T <> 0.
Proof. unfold Rdiv. apply Rmult_integral_contrapositive_currified; [lra|now apply Rinv_neq_0_compat]. Qed.
Lemma Hpi_5 : (p/(10/10)) <> 0.
Proof. unfold Rdiv. apply Rmult_integral_contrapositive_currified; [exact Hp|apply Rinv_neq_0_compat; lra]. Qed.
Ltac open5 := pose proof Hy0_5 as Hy0; pose proof Hpi_5 as Hpi;
  cbv beta zeta delta [RGAS_WATER r5Tstar r5Pstar Tt gamma0_pi_reg5 gamma0_pipi_reg5 gamma0_pitau_reg5]; rnum;
  
  rewrite ?g5_0, ?g5_p, ?g5_t, ?g5_pp, ?g5_tt, ?g5_pt, ?g5_i_j, ?g5_0_j, ?g5_4, ?id5_0, ?id5_t, ?id5_tt by assumption;
  cbv beta iota zeta; unfold f_v, f_h, f_s, f_u, f_g, f_f, f_cp, f_cv, f_dvdt, f_dvdp, f_kt, f_ec, f_dpdt, f_joule, f_dhdp, f_w2, Rw;
  rewrite ?ps5, ?Ts5;  cbn [G_0 G_p G_t G_pp G_pt G_tt Gib5].

Lemma v5 : @pT2v_reg5 RArith p T = f_v Gib5 p T.
Proof. unfold pT2v_reg5. open5. field; auto. Qed.
Lemma h5 : @pT2h_reg5 RArith p T = f_h Gib5 p T.
Proof. unfold pT2h_reg5. open5. field; auto. Qed.
Lemma u5 : @pT2u_reg5 RArith p T = f_u Gib5 p T.
Proof. unfold pT2u_reg5. open5. field; auto. Qed.
Lemma g5 : @pT2g_reg5 RArith p T = f_g Gib5 p T.
Proof. unfold pT2g_reg5. open5. field; auto. Qed.
Lemma f5 : @pT2f_reg5 RArith p T = f_f Gib5 p T.
Proof. unfold pT2f_reg5. open5. field; auto. Qed.
Lemma cp5 : @pT2cp_reg5 RArith p T = f_cp Gib5 p T.
Proof. unfold pT2cp_reg5. open5. field; auto. Qed.
Lemma s5 : @pT2s_reg5 RArith p T = f_s Gib5 p T.
Proof. unfold pT2s_reg5. open5. field; auto. Qed.
Lemma dvdt5 : @pT2dvdtcp_reg5 RArith p T = f_dvdt Gib5 p T.
Proof. unfold pT2dvdtcp_reg5. open5. field; auto. Qed.
Lemma dvdp5 : @pT2dvdpct_reg5 RArith p T = f_dvdp Gib5 p T.
Proof. unfold pT2dvdpct_reg5. open5. field; auto. Qed.
Lemma dhdp5 : @pT2iJTC_reg5 RArith p T = f_dhdp Gib5 p T / 1000.
Proof. unfold pT2iJTC_reg5. open5. field; auto. Qed.
Lemma e5 : @pT2e_reg5 RArith p T = f_h Gib5 p T - 27316/100 * f_s Gib5 p T.
Proof. unfold pT2e_reg5. open5. field; auto. Qed.
Lemma z5 : @pT2z_reg5 RArith p T = 1000 * p * f_v Gib5 p T / (Rw * T).
Proof. unfold pT2z_reg5. cbv zeta. rewrite v5. cbv delta [RGAS_WATER]. rnum. unfold Rw. field; auto. Qed.
Lemma dpdt5 : @pT2dpdtcv_reg5 RArith p T = f_dpdt Gib5 p T.
Proof.
  unfold pT2dpdtcv_reg5. open5. unfold Rdiv. apply (f_equal2 Rmult); [field; auto|reflexivity].
Qed.
Lemma pc5 : @pT2pc_reg5 RArith p T = f_dpdt Gib5 p T / p.
Proof. unfold pT2pc_reg5. rewrite dpdt5. rnum. field; auto. Qed.
Let gp := G_p Gib5 (p/(10/10)) (10000/10/T).
Let gpp := G_pp Gib5 (p/(10/10)) (10000/10/T).
Let gpt := G_pt Gib5 (p/(10/10)) (10000/10/T).
Let gtt := G_tt Gib5 (p/(10/10)) (10000/10/T).
Hypothesis Hv : gp <> 0.
Lemma kt5 : @pT2kt_reg5 RArith p T = f_kt Gib5 p T.
Proof.
  revert Hv. unfold gp. unfold pT2kt_reg5. open5. intros Hv'.
  match goal with |- - (?a / ?b) = - (?c / ?d) / ?e => generalize dependent b; generalize a end.
  intros. field. auto.
Qed.
Lemma ec5 : @pT2ec_reg5 RArith p T = f_ec Gib5 p T.
Proof.
  unfold pT2ec_reg5. cbv zeta. rewrite v5, dvdt5. rewrite (i_ec Gib5); rewrite ?ps5, ?Ts5; try assumption; try lra. rnum.
  unfold Rdiv. lra.
Qed.
Lemma joule5 : gtt <> 0 -> @pT2joule_reg5 RArith p T = f_joule Gib5 p T.
Proof.
  intros Ht. revert Ht Hv. unfold gtt, gp. unfold pT2joule_reg5. open5. intros Ht Hv'.
  generalize dependent (10 / 10 / (p/(10/10)) + Px t (p/(10/10)) ((10000/10/T))). intros.
  generalize dependent (Pyy t0 1 (10000/10/T) + Pyy t (p/(10/10)) ((10000/10/T))). intros.
  generalize (0 / 10 + Pxy t (p/(10/10)) ((10000/10/T))). intros. field. auto.
Qed.
Lemma alfap5 : @pT2alfap_reg5 RArith p T = f_ec Gib5 p T / p / f_kt Gib5 p T.
Proof. unfold pT2alfap_reg5. now rewrite ec5, kt5. Qed.
Lemma betap5 : @pT2batap_reg5 RArith p T = 1 / (p * f_v Gib5 p T * f_kt Gib5 p T).
Proof. unfold pT2batap_reg5. rewrite v5, kt5. rnum. f_equal; lra. Qed.
Lemma den5 : gpp <> 0 -> 1 - (p/(10/10)) * (p/(10/10)) * Pxx t (p/(10/10)) ((10000/10/T)) <> 0.
Proof.
  unfold gpp. cbn [G_pp Gib5]. intros H E. apply H. pose proof Hpi_5.
  replace (Pxx t (p/(10/10)) ((10000/10/T))) with (1 / ((p/(10/10)) * (p/(10/10)))); [field; auto|].
  apply (Rmult_eq_reg_l ((p/(10/10)) * (p/(10/10)))); [|now apply Rmult_integral_contrapositive_currified].
  transitivity 1; [field; auto|lra].
Qed.
(* reg5: the c_v returned, which is not f_cv *)
Lemma cv5 : gpp <> 0 -> @pT2cv_reg5 RArith p T =
  Rw * (- (10000/10/T) * (10000/10/T) * gtt - (p * (gp - 10000/10/T * gpt)) ^ 2) / (- (p * p * gpp)).
Proof.
  intros Hpp. pose proof (den5 Hpp) as D. revert D Hpp. unfold gp, gpp, gtt, gpt. unfold pT2cv_reg5. open5. clear gp gpt gtt gpp Hv. intros D Hpp.
  replace (p/(10/10)) with p in * by field. clear Hpi.
  generalize dependent (Px t (p) ((10000/10/T))).
  generalize dependent (Pxx t (p) ((10000/10/T))).
  generalize dependent (Pyy t0 1 (10000/10/T) + Pyy t (p) ((10000/10/T))).
  generalize dependent (Pxy t (p) ((10000/10/T))).
  generalize dependent (10000/10/T). intros.
  replace (-10/10) with (-1) in * by lra; replace (10/10) with 1 in * by lra.
  field. repeat split; auto; intros E; apply D; lra.
Qed.
Lemma w5 : gtt <> 0 -> (gp - (10000/10/T) * gpt) ^ 2 / ((10000/10/T) * (10000/10/T) * gtt) - gpp <> 0 ->
  0 <= f_w2 Gib5 p T -> @pT2w_reg5 RArith p T ^ 2 = f_w2 Gib5 p T.
Proof.
  intros Ht D. unfold pT2w_reg5. revert Ht D Hv. unfold gp, gpp, gtt, gpt. open5. clear gp gpt gtt gpp. intros Ht D _ H0.
  match type of H0 with 0 <= ?r => match goal with |- sqrt (if Rlt_b ?q _ then _ else _) ^ 2 = _ => assert (E : q = r) end end;
    [|rewrite E; match goal with |- context [Rlt_b ?a ?b] => replace (Rlt_b a b) with false by (symmetry; apply Rlt_b_false; lra) end;
      rewrite <- Rsqr_pow2, Rsqr_sqrt by exact H0; reflexivity]. clear H0.
  generalize dependent (Px t (p/(10/10)) ((10000/10/T))).
  generalize dependent (Pxx t (p/(10/10)) ((10000/10/T))).
  generalize dependent (Pyy t0 1 (10000/10/T) + Pyy t (p/(10/10)) ((10000/10/T))).
  generalize dependent (Pxy t (p/(10/10)) ((10000/10/T))).
  generalize dependent (p/(10/10)). generalize dependent (10000/10/T). intros y Hy0 x Hx xy tt Ht xx px D.
  replace (-10/10) with (-1) in * by lra; replace (10/10) with 1 in * by lra.
  assert (D' : (1 + x * px - y * x * xy) ^ 2 + y * y * tt * (1 - x * x * xx) <> 0).
  { intros E. apply D. replace ((1 / x + px - y * (0 / 10 + xy)) ^ 2) with ((1 + x * px - y * x * xy) ^ 2 / (x * x)) by (field; auto).
    replace ((1 + x * px - y * x * xy) ^ 2) with (- (y * y * tt * (1 - x * x * xx))) by lra. field. auto. }
  field. repeat split; auto; intros E; apply D'; lra.
Qed.
End PT.
End R5.
