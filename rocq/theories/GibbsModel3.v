(* Region 3 of the model over R against its fundamental equation. *)
From Coq Require Import ZArith List Bool Reals Lra Lia.
From Coquelicot Require Import Coquelicot.
From Verif Require Import Num Algo Constant Reg3Td RealInst RealSat Steps RSums Gibbs GibbsModel.
Import ListNotations.
Open Scope R_scope.

Section R3.
Let t : list (Z * Z * R) := @region3_hfe_IJn RArith.
Let n1 : R := @region3_hfe_n1 RArith.
Definition Helm3 : helmholtz := {|
  H_dc := 3220 / 10; H_Tc := 647096 / 1000;
  H_0 := fun x y => n1 * ln x + P t x y;
  H_d := fun x y => n1 / x + Px t x y;
  H_t := fun x y => Py t x y;
  H_dd := fun x y => - n1 / x / x + Pxx t x y;
  H_dt := fun x y => Pxy t x y;
  H_tt := fun x y => Pyy t x y |}.
Lemma Helm3_ok x y : 0 < x -> y <> 0 -> helmholtz_ok Helm3 x y.
Proof.
  intros Hx Hy. assert (x <> 0) by lra. split; cbn [H_0 H_d H_t H_dd H_dt H_tt Helm3].
  - apply (dadd (fun x => n1 * ln x)); [|now apply P_x].
    eapply dval; [apply (dmul (fun _ => n1) ln); [apply dconst|now apply d_ln]|cbv beta; field; auto].
  - eapply dval; [apply (dadd (fun _ => n1 * ln x)); [apply dconst|now apply P_y]|ring].
  - eapply dval; [apply (dadd (fun x => n1 / x)); [now apply dinvc|now apply Px_x]|field; auto].
  - eapply dval; [apply (dadd (fun _ => n1 / x)); [apply dconst|now apply Px_y]|ring].
  - now apply Py_x.
  - now apply Py_y.
Qed.
Lemma dc3 : H_dc Helm3 = 3220 / 10. Proof. reflexivity. Qed.
Lemma Tc3 : H_Tc Helm3 = 647096 / 1000. Proof. reflexivity. Qed.

Lemma p3_0 x y : @phi_reg3 RArith x y = n1 * ln x + P t x y.
Proof. unfold phi_reg3. cbv zeta. rewrite s_P by vis. reflexivity. Qed.
Lemma p3_d x y : @phi_delta_reg3 RArith x y = n1 / x + Px t x y.
Proof. unfold phi_delta_reg3. cbv zeta. rewrite s_Px by vis. reflexivity. Qed.
Lemma p3_dd x y : @phi_deltadelta_reg3 RArith x y = - n1 / x / x + Pxx t x y.
Proof. unfold phi_deltadelta_reg3. cbv zeta. rewrite s_Pxx by vis. reflexivity. Qed.
Lemma p3_t x y : @phi_tau_reg3 RArith x y = Py t x y.
Proof. unfold phi_tau_reg3. cbv zeta. rewrite s_Py by vis. reflexivity. Qed.
Lemma p3_tt x y : @phi_tautau_reg3 RArith x y = Pyy t x y.
Proof. unfold phi_tautau_reg3. cbv zeta. rewrite s_Pyy by vis. reflexivity. Qed.
Lemma p3_dt x y : x <> 0 -> y <> 0 -> @phi_deltatau_reg3 RArith x y = Pxy t x y.
Proof. intros. unfold phi_deltatau_reg3. cbv zeta. rewrite s_Pxy by first [assumption | vis]. reflexivity. Qed.
Lemma p3_0_j x y : x <> 0 -> y <> 0 -> @polys_0_j_powi_reg3 RArith x y = (P t x y + n1 * ln x, Py t x y).
Proof. intros. unfold polys_0_j_powi_reg3. cbv zeta. rewrite s_0_j by first [assumption | vis]. reflexivity. Qed.
Lemma p3_i_j x y : x <> 0 -> y <> 0 -> @polys_i_j_powi_reg3 RArith x y = (Px t x y + n1 / x, Py t x y).
Proof. intros. unfold polys_i_j_powi_reg3. cbv zeta. rewrite s_i_j by first [assumption | vis]. reflexivity. Qed.
Lemma p3_4 x y : x <> 0 -> y <> 0 -> @polys_i_ii_ij_jj_powi_reg3 RArith x y =
  (n1 / x + Px t x y, - n1 / x / x + Pxx t x y, Pxy t x y, Pyy t x y).
Proof. intros. unfold polys_i_ii_ij_jj_powi_reg3. cbv zeta. rewrite s_4 by first [assumption | vis]. reflexivity. Qed.

Section TD.
Variables T d : R.
Hypothesis (HT : T <> 0) (Hd : d <> 0).
Lemma Hy_3 : 647096 / 1000 / T <> 0.
Proof. unfold Rdiv. apply Rmult_integral_contrapositive_currified; [lra|now apply Rinv_neq_0_compat]. Qed.
Lemma Hx_3 : d / (3220 / 10) <> 0.
Proof. unfold Rdiv. apply Rmult_integral_contrapositive_currified; [exact Hd|lra]. Qed.
Let x := d / (3220 / 10). Let y := 647096 / 1000 / T.
Let h0 := n1 * ln x + P t x y.
Let hd := n1 / x + Px t x y.
Let ht := Py t x y.
Let hdd := - n1 / x / x + Pxx t x y.
Let hdt := Pxy t x y.
Let htt := Pyy t x y.
Ltac open3 := pose proof Hy_3 as Hy; pose proof Hx_3 as Hx;
  cbv beta zeta delta [RGAS_WATER TC_WATER DC_WATER Tt]; rnum;
  rewrite ?p3_0, ?p3_d, ?p3_dd, ?p3_t, ?p3_tt, ?p3_dt, ?p3_0_j, ?p3_i_j, ?p3_4 by assumption;
  cbv beta iota zeta; unfold e_joule, e_ec, e_kt, e_dvdp, e_dvdt, e_p, e_u, e_s, e_h, e_g, e_f, e_cv, e_cp, e_w2, e_dpdt, e_dpdd, Rw;
  rewrite ?dc3, ?Tc3; cbn [H_0 H_d H_t H_dd H_dt H_tt Helm3]; fold x y in Hx, Hy |- *; fold h0 hd ht hdd hdt htt;
  rewrite ?(Rplus_comm (Px t x y)), ?(Rplus_comm (P t x y)); fold h0 hd.

Lemma p3 : @Td2p_reg3 RArith T d = e_p Helm3 T d.
Proof. unfold Td2p_reg3. open3. field. Qed.
Lemma u3 : @Td2u_reg3 RArith T d = e_u Helm3 T d.
Proof. unfold Td2u_reg3. open3. unfold y at 1. field; auto. Qed.
Lemma s3 : @Td2s_reg3 RArith T d = e_s Helm3 T d.
Proof. unfold Td2s_reg3. open3. field. Qed.
Lemma h3 : @Td2h_reg3 RArith T d = e_h Helm3 T d.
Proof. unfold Td2h_reg3. open3. field. Qed.
Lemma g3 : @Td2g_reg3 RArith T d = e_g Helm3 T d.
Proof. unfold Td2g_reg3. open3. field. Qed.
Lemma f3 : @Td2f_reg3 RArith T d = e_f Helm3 T d.
Proof. unfold Td2f_reg3. open3. field. Qed.
Lemma cv3 : @Td2cv_reg3 RArith T d = e_cv Helm3 T d.
Proof. unfold Td2cv_reg3. open3. field. Qed.
Lemma dpdt3 : @Td2dpdtcv_reg3 RArith T d = e_dpdt Helm3 T d.
Proof. unfold Td2dpdtcv_reg3. open3. field. Qed.
Lemma e3 : @Td2e_reg3 RArith T d = e_g Helm3 T d + (T - 27316/100) * (y * (Rw * (ht - h0))).
Proof. unfold Td2e_reg3. open3. field. Qed.
Lemma z3 : @Td2z_reg3 RArith T d = 1000 * e_p Helm3 T d * (1 / d) / (Rw * T).
Proof. unfold Td2z_reg3. cbv zeta. rewrite p3. cbv delta [RGAS_WATER]. rnum. unfold Rw. field; auto. Qed.
Lemma pc3 : e_p Helm3 T d <> 0 -> @Td2pc_reg3 RArith T d = e_dpdt Helm3 T d / e_p Helm3 T d.
Proof. intros. unfold Td2pc_reg3. cbv zeta. rewrite p3, dpdt3. rnum. field; auto. Qed.
Hypothesis Hden : 2 * hd + x * hdd <> 0.
Lemma cp3 : @Td2cp_reg3 RArith T d = e_cp Helm3 T d.
Proof. unfold Td2cp_reg3. open3. replace (20 / 10) with 2 by lra. field; auto. Qed.
Lemma dvdp3 : @Td2dvdpct_reg3 RArith T d = e_dvdp Helm3 T d.
Proof. unfold Td2dvdpct_reg3. open3. replace (20 / 10) with 2 by lra. unfold x at 2. field. repeat split; auto. Qed.
Lemma dvdt3 : @Td2dvdtcp_reg3 RArith T d = e_dvdt Helm3 T d.
Proof. unfold Td2dvdtcp_reg3. open3. replace (20 / 10) with 2 by lra. field. repeat split; auto. Qed.
Lemma kt3 : @Td2kt_reg3 RArith T d = e_kt Helm3 T d.
Proof. unfold Td2kt_reg3. rewrite dvdp3. reflexivity. Qed.
Lemma ec3 : @Td2ec_reg3 RArith T d = e_ec Helm3 T d.
Proof. unfold Td2ec_reg3. rewrite dvdt3. reflexivity. Qed.
Lemma joule3 : e_cp Helm3 T d <> 0 -> @Td2joule_reg3 RArith T d = e_joule Helm3 T d.
Proof.
  intros Hc. unfold e_joule.
  assert (E : @Td2joule_reg3 RArith T d = 1000 * (1 / d / @Td2cp_reg3 RArith T d) * (T * (d * @Td2dvdtcp_reg3 RArith T d) - 1)).
  { rewrite cp3. unfold e_cp in Hc |- *. rewrite dc3, Tc3 in *. revert Hc. unfold Td2joule_reg3, Td2dvdtcp_reg3. open3.
    intros Hc. replace (20 / 10) with 2 by lra. unfold Rw in *. replace (-10/10) with (-1) by lra.
    assert (E : 461526/1000000 * (-1 * y * y * htt + x * (hd - y * hdt) * (x * (hd - y * hdt)) / (x * (2 * hd + x * hdd))) =
      461526/1000000 * (- (y * y) * htt + (x * (hd - y * hdt)) ^ 2 / (x * (2 * hd + x * hdd)))) by (field; auto).
    rewrite E. clear E. revert Hc. generalize (461526/1000000 * (- (y * y) * htt + (x * (hd - y * hdt)) ^ 2 / (x * (2 * hd + x * hdd)))). intros c Hc.
    field. repeat split; auto. }
  rewrite E, cp3. unfold e_ec. now rewrite dvdt3.
Qed.
Lemma iJTC3 : e_cp Helm3 T d <> 0 -> @Td2iJTC_reg3 RArith T d = - (e_cp Helm3 T d * e_joule Helm3 T d) / 1000.
Proof. intros Hc. unfold Td2iJTC_reg3. rewrite cp3, joule3 by exact Hc. rnum. field. Qed.
Lemma alfap3 : @Td2alfap_reg3 RArith T d = e_ec Helm3 T d / e_p Helm3 T d / e_kt Helm3 T d.
Proof. unfold Td2alfap_reg3. now rewrite ec3, kt3, p3. Qed.
Lemma betap3 : @Td2batap_reg3 RArith T d = d / (e_p Helm3 T d * e_kt Helm3 T d).
Proof. unfold Td2batap_reg3. now rewrite kt3, p3. Qed.
Lemma w3 : htt <> 0 -> 0 <= e_w2 Helm3 T d -> @Td2w_reg3 RArith T d ^ 2 = e_w2 Helm3 T d.
Proof.
  intros Ht. unfold Td2w_reg3. open3. intros H0.
  match type of H0 with 0 <= ?r => match goal with |- sqrt ?q ^ 2 = _ => assert (E : q = r) end end;
    [|rewrite E, <- Rsqr_pow2, Rsqr_sqrt by exact H0; reflexivity].
  replace (20 / 10) with 2 by lra. field. auto.
Qed.
End TD.
End R3.
