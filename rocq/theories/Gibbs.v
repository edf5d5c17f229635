(* Thermodynamic functions generated by a Gibbs energy g(pi, tau) or a Helmholtz
   energy phi(delta, tau), over the reals: formulas, derivatives, identities.
   Nothing here refers to the model. *)
From Coq Require Import ZArith List Reals Lra.
From Coquelicot Require Import Coquelicot.
Open Scope R_scope.

(* a derivative rewritten to the wanted form *)
Lemma dval (f : R -> R) (x l l' : R) : is_derive f x l -> l = l' -> is_derive f x l'.
Proof. intros H <-. exact H. Qed.
Lemma dmul (f g : R -> R) (x a b : R) : is_derive f x a -> is_derive g x b ->
  is_derive (fun x => f x * g x) x (a * g x + f x * b).
Proof. intros Hf Hg. apply (is_derive_mult f g x a b Hf Hg). intros; apply Rmult_comm. Qed.
Lemma dadd (f g : R -> R) (x a b : R) : is_derive f x a -> is_derive g x b ->
  is_derive (fun x => f x + g x) x (a + b).
Proof. intros Hf Hg. apply (is_derive_plus (K := R_AbsRing) (V := R_NormedModule) f g x a b Hf Hg). Qed.
Lemma dsub (f g : R -> R) (x a b : R) : is_derive f x a -> is_derive g x b ->
  is_derive (fun x => f x - g x) x (a - b).
Proof. intros Hf Hg. apply (is_derive_minus (K := R_AbsRing) (V := R_NormedModule) f g x a b Hf Hg). Qed.
Lemma dconst (c x : R) : is_derive (fun _ : R => c) x 0.
Proof. apply (is_derive_const (K := R_AbsRing) (V := R_NormedModule) c x). Qed.
Lemma did (x : R) : is_derive (fun x : R => x) x 1.
Proof. apply (is_derive_id (K := R_AbsRing) x). Qed.
Lemma dcomp (f g : R -> R) (x df dg : R) : is_derive f (g x) df -> is_derive g x dg ->
  is_derive (fun x => f (g x)) x (dg * df).
Proof. intros Hf Hg. apply (is_derive_comp f g x df dg Hf Hg). Qed.
Lemma ddivc (c x : R) : is_derive (fun x : R => x / c) x (/ c).
Proof. apply (dval _ _ (1 * / c + x * 0)); [apply (dmul (fun x => x) (fun _ => / c)); [apply did|apply dconst]|ring]. Qed.
Lemma dinvc (c x : R) : x <> 0 -> is_derive (fun x : R => c / x) x (- c / (x * x)).
Proof.
  intros H. apply (dval _ _ (0 * / x + c * (- 1 / x ^ 2))); [|field; exact H].
  apply (dmul (fun _ => c) (fun x => / x)); [apply dconst|].
  apply (is_derive_inv (fun x => x) x 1); [apply did|exact H].
Qed.

(* ---------- Gibbs energy ---------- *)
Record gibbs := { G_ps : R; G_Ts : R;
  G_0 : R -> R -> R; G_p : R -> R -> R; G_t : R -> R -> R;
  G_pp : R -> R -> R; G_pt : R -> R -> R; G_tt : R -> R -> R }.

(* the listed functions are the partial derivatives at (x, y) *)
Record gibbs_ok (G : gibbs) (x y : R) : Prop := {
  ok_p : is_derive (fun x => G_0 G x y) x (G_p G x y);
  ok_t : is_derive (fun y => G_0 G x y) y (G_t G x y);
  ok_pp : is_derive (fun x => G_p G x y) x (G_pp G x y);
  ok_pt : is_derive (fun y => G_p G x y) y (G_pt G x y);
  ok_tp : is_derive (fun x => G_t G x y) x (G_pt G x y);
  ok_tt : is_derive (fun y => G_t G x y) y (G_tt G x y) }.

Definition Rw : R := 461526 / 1000000.

Section Gibbs.
Variable G : gibbs.
Let ps := G_ps G. Let Ts := G_Ts G.
Section Formulas.
Variables p T : R.
Let x := p / ps. Let y := Ts / T.
Definition f_v := Rw * T * G_p G x y / ps / 1000.
Definition f_h := Rw * Ts * G_t G x y.
Definition f_s := Rw * (y * G_t G x y - G_0 G x y).
Definition f_u := Rw * T * (y * G_t G x y - x * G_p G x y).
Definition f_g := Rw * T * G_0 G x y.
Definition f_f := Rw * T * (G_0 G x y - x * G_p G x y).
Definition f_cp := - Rw * (y * y) * G_tt G x y.
Definition f_cv := Rw * (- (y * y) * G_tt G x y + (G_p G x y - y * G_pt G x y) ^ 2 / G_pp G x y).
Definition f_dvdt := Rw * (G_p G x y - y * G_pt G x y) / ps / 1000.
Definition f_dvdp := Rw * T * G_pp G x y / (ps * ps) / 1000.
Definition f_kt := - (G_pp G x y / G_p G x y) / ps.
Definition f_ec := (1 - y * G_pt G x y / G_p G x y) / T.
Definition f_dpdt := ps * (G_pt G x y * Ts - G_p G x y * T) / (T * T * G_pp G x y).
Definition f_joule := (Rw * T * G_p G x y / ps) / (- Rw * (y * y) * G_tt G x y) * (- y * G_pt G x y / G_p G x y).
(* (dh/dp)_T, kJ/(kg MPa) *)
Definition f_dhdp := Rw * Ts * G_pt G x y / ps.
Definition f_w2 := G_p G x y ^ 2 * (1000 * Rw * T / ((G_p G x y - y * G_pt G x y) ^ 2 / (y * y * G_tt G x y) - G_pp G x y)).
End Formulas.

Hypothesis Hps : ps <> 0.
Section Point.
Variables p T : R.
Hypothesis HT : T <> 0.
Let x := p / ps. Let y := Ts / T.
Hypothesis ok : gibbs_ok G x y.

Lemma d_p (k : R -> R -> R) (kp : R) : is_derive (fun x => k x y) x kp ->
  is_derive (fun p => k (p / ps) (Ts / T)) p (/ ps * kp).
Proof. intros H. apply (dcomp (fun x => k x y) (fun p => p / ps)); [exact H|apply ddivc]. Qed.
Lemma d_T (k : R -> R -> R) (kt : R) : is_derive (fun y => k x y) y kt ->
  is_derive (fun T => k (p / ps) (Ts / T)) T (- Ts / (T * T) * kt).
Proof. intros H. apply (dcomp (fun y => k x y) (fun T => Ts / T)); [exact H|now apply dinvc]. Qed.

Lemma g_p : is_derive (fun p => f_g p T) p (1000 * f_v p T).
Proof.
  unfold f_g. eapply dval; [apply (dmul (fun _ => Rw * T)); [apply dconst|apply d_p, (ok_p _ _ _ ok)]|].
  cbv beta. unfold f_v. fold ps Ts x y. field. exact Hps.
Qed.
Lemma g_T : is_derive (fun T => f_g p T) T (- f_s p T).
Proof.
  unfold f_g. eapply dval.
  { apply (dmul (fun T => Rw * T) (fun T => G_0 G (p / ps) (Ts / T))).
    - apply (dmul (fun _ => Rw) (fun T => T)); [apply dconst|apply did].
    - apply d_T, (ok_t _ _ _ ok). }
  cbv beta. unfold f_s. fold ps Ts x y. unfold y. field. exact HT.
Qed.
Lemma h_T : is_derive (fun T => f_h p T) T (f_cp p T).
Proof.
  unfold f_h. eapply dval; [apply (dmul (fun _ => Rw * Ts)); [apply dconst|apply d_T, (ok_tt _ _ _ ok)]|].
  cbv beta. unfold f_cp. fold ps Ts x y. unfold y. field. exact HT.
Qed.
Lemma h_p : is_derive (fun p => f_h p T) p (f_dhdp p T).
Proof.
  unfold f_h. eapply dval; [apply (dmul (fun _ => Rw * Ts)); [apply dconst|apply d_p, (ok_tp _ _ _ ok)]|].
  cbv beta. unfold f_dhdp. fold ps Ts x y. field. exact Hps.
Qed.
Lemma s_T : is_derive (fun T => f_s p T) T (f_cp p T / T).
Proof.
  unfold f_s. eapply dval.
  { apply (dmul (fun _ => Rw) (fun T => Ts / T * G_t G (p / ps) (Ts / T) - G_0 G (p / ps) (Ts / T))); [apply dconst|].
    apply (dsub (fun T => Ts / T * G_t G (p / ps) (Ts / T))); [|apply d_T, (ok_t _ _ _ ok)].
    apply (dmul (fun T => Ts / T)); [now apply dinvc|apply d_T, (ok_tt _ _ _ ok)]. }
  cbv beta. unfold f_cp. fold ps Ts x y. unfold y. field. exact HT.
Qed.
Lemma v_T : is_derive (fun T => f_v p T) T (f_dvdt p T).
Proof.
  unfold f_v. eapply dval.
  { apply (dmul (fun T => Rw * T * G_p G (p / ps) (Ts / T) / ps) (fun _ => / 1000)); [|apply dconst].
    apply (dmul (fun T => Rw * T * G_p G (p / ps) (Ts / T)) (fun _ => / ps)); [|apply dconst].
    apply (dmul (fun T => Rw * T)).
    - apply (dmul (fun _ => Rw) (fun T => T)); [apply dconst|apply did].
    - apply d_T, (ok_pt _ _ _ ok). }
  cbv beta. unfold f_dvdt. fold ps Ts x y. unfold y. field. auto.
Qed.
Lemma v_p : is_derive (fun p => f_v p T) p (f_dvdp p T).
Proof.
  unfold f_v. eapply dval.
  { apply (dmul (fun p => Rw * T * G_p G (p / ps) (Ts / T) / ps) (fun _ => / 1000)); [|apply dconst].
    apply (dmul (fun p => Rw * T * G_p G (p / ps) (Ts / T)) (fun _ => / ps)); [|apply dconst].
    apply (dmul (fun _ => Rw * T)); [apply dconst|]. apply d_p, (ok_pp _ _ _ ok). }
  cbv beta. unfold f_dvdp. fold ps Ts x y. field. auto.
Qed.
Lemma s_p : is_derive (fun p => f_s p T) p (- 1000 * f_dvdt p T).
Proof.
  unfold f_s. eapply dval.
  { apply (dmul (fun _ => Rw) (fun p => Ts / T * G_t G (p / ps) (Ts / T) - G_0 G (p / ps) (Ts / T))); [apply dconst|].
    apply (dsub (fun p => Ts / T * G_t G (p / ps) (Ts / T))); [|apply d_p, (ok_p _ _ _ ok)].
    apply (dmul (fun _ => Ts / T)); [apply dconst|apply d_p, (ok_tp _ _ _ ok)]. }
  cbv beta. unfold f_dvdt. fold ps Ts x y. unfold y. field. auto.
Qed.

(* algebraic identities *)
Lemma i_h : f_h p T = f_u p T + 1000 * p * f_v p T.
Proof. unfold f_h, f_u, f_v. fold ps Ts x y. unfold x, y. field. auto. Qed.
Lemma i_g : f_g p T = f_h p T - T * f_s p T.
Proof. unfold f_h, f_g, f_s. fold ps Ts x y. unfold y. field. auto. Qed.
Lemma i_f : f_f p T = f_u p T - T * f_s p T.
Proof. unfold f_u, f_f, f_s. fold ps Ts x y. unfold y. field. auto. Qed.

Lemma Rw_nz : Rw <> 0. Proof. unfold Rw; lra. Qed.
Lemma v_nz : f_v p T <> 0 <-> G_p G x y <> 0.
Proof.
  unfold f_v. fold ps Ts x y. split.
  - intros H E. apply H. rewrite E. unfold Rdiv. ring.
  - intros H. pose proof Rw_nz. repeat apply Rmult_integral_contrapositive_currified; auto using Rinv_neq_0_compat; try lra.
Qed.
Lemma dvdp_nz : f_dvdp p T <> 0 <-> G_pp G x y <> 0.
Proof.
  unfold f_dvdp. fold ps Ts x y. split.
  - intros H E. apply H. rewrite E. unfold Rdiv. ring.
  - intros H. pose proof Rw_nz. unfold Rdiv. repeat apply Rmult_integral_contrapositive_currified; auto; try lra; apply Rinv_neq_0_compat; try lra.
    now apply Rmult_integral_contrapositive_currified.
Qed.
Hypothesis Hv : G_p G x y <> 0.
Lemma i_ec : f_ec p T = f_dvdt p T / f_v p T.
Proof. unfold f_ec, f_dvdt, f_v. fold ps Ts x y. pose proof Rw_nz. field. auto. Qed.
Lemma i_kt : f_kt p T = - (f_dvdp p T / f_v p T).
Proof. unfold f_kt, f_dvdp, f_v. fold ps Ts x y. pose proof Rw_nz. field. auto. Qed.
Hypothesis Hpp : G_pp G x y <> 0.
Lemma i_dpdt : f_dpdt p T = - (f_dvdt p T / f_dvdp p T).
Proof. unfold f_dpdt, f_dvdp, f_dvdt. fold ps Ts x y. pose proof Rw_nz. unfold y. field. auto. Qed.
Lemma i_dpdt_ec : f_dpdt p T = f_ec p T / f_kt p T.
Proof. unfold f_dpdt, f_ec, f_kt. fold ps Ts x y. unfold y. field. auto. Qed.
Lemma i_mayer : f_cp p T - f_cv p T = 1000 * T * f_v p T * f_ec p T ^ 2 / f_kt p T.
Proof. unfold f_cp, f_cv, f_v, f_ec, f_kt. fold ps Ts x y. pose proof Rw_nz. field. auto. Qed.
End Point.

Section Sound.
Variables p T : R.
Hypothesis HT : T <> 0.
Hypothesis HTs : Ts <> 0.
Let x := p / ps. Let y := Ts / T.
Hypothesis Hv : G_p G x y <> 0.
Lemma i_jtc : G_tt G x y <> 0 -> f_joule p T * f_cp p T = - f_dhdp p T.
Proof.
  intros H. assert (y <> 0) by (unfold y; unfold Rdiv; apply Rmult_integral_contrapositive_currified; [exact HTs|now apply Rinv_neq_0_compat]).
  unfold f_joule, f_cp, f_dhdp. fold ps Ts x y. replace Ts with (y * T) by (unfold y; field; auto). pose proof Rw_nz. field. auto.
Qed.
Lemma i_w2 : G_pp G x y <> 0 -> f_cv p T <> 0 ->
  G_tt G x y <> 0 ->
  f_w2 p T = 1000 * 1000 * f_v p T * (f_cp p T / f_cv p T) / f_kt p T.
Proof.
  intros Hpp Hcv Htt.
  assert (Hden : (G_p G x y - y * G_pt G x y) ^ 2 - G_pp G x y * (y * y * G_tt G x y) <> 0).
  { intros E. apply Hcv. unfold f_cv. fold ps Ts x y.
    replace ((G_p G x y - y * G_pt G x y) ^ 2) with (G_pp G x y * (y * y * G_tt G x y)) by lra. field. exact Hpp. }
  assert (y <> 0) by (unfold y; unfold Rdiv; apply Rmult_integral_contrapositive_currified; [exact HTs|now apply Rinv_neq_0_compat]).
  unfold f_w2, f_v, f_cp, f_cv, f_kt. fold ps Ts x y. pose proof Rw_nz. field.
  repeat split; auto.
  intros E. apply Hden. nra.
Qed.
End Sound.
End Gibbs.

(* ---------- Helmholtz energy ---------- *)
Record helmholtz := { H_dc : R; H_Tc : R;
  H_0 : R -> R -> R; H_d : R -> R -> R; H_t : R -> R -> R;
  H_dd : R -> R -> R; H_dt : R -> R -> R; H_tt : R -> R -> R }.
Record helmholtz_ok (H : helmholtz) (x y : R) : Prop := {
  hok_d : is_derive (fun x => H_0 H x y) x (H_d H x y);
  hok_t : is_derive (fun y => H_0 H x y) y (H_t H x y);
  hok_dd : is_derive (fun x => H_d H x y) x (H_dd H x y);
  hok_dt : is_derive (fun y => H_d H x y) y (H_dt H x y);
  hok_td : is_derive (fun x => H_t H x y) x (H_dt H x y);
  hok_tt : is_derive (fun y => H_t H x y) y (H_tt H x y) }.

Section Helmholtz.
Variable H : helmholtz.
Let dc := H_dc H. Let Tc := H_Tc H.
Section Formulas.
Variables T d : R.
Let x := d / dc. Let y := Tc / T.
Definition e_p := Rw * T * d * x * H_d H x y / 1000.
Definition e_u := Rw * Tc * H_t H x y.
Definition e_s := Rw * (y * H_t H x y - H_0 H x y).
Definition e_h := Rw * T * (y * H_t H x y + x * H_d H x y).
Definition e_g := Rw * T * (H_0 H x y + x * H_d H x y).
Definition e_f := Rw * T * H_0 H x y.
Definition e_cv := - Rw * (y * y) * H_tt H x y.
Definition e_cp := Rw * (- (y * y) * H_tt H x y
  + (x * (H_d H x y - y * H_dt H x y)) ^ 2 / (x * (2 * H_d H x y + x * H_dd H x y))).
Definition e_w2 := 1000 * Rw * T * (x * (2 * H_d H x y + x * H_dd H x y)
  - (x * (H_d H x y - y * H_dt H x y)) ^ 2 / (y * y * H_tt H x y)).
Definition e_dpdt := Rw * d * x * (H_d H x y - y * H_dt H x y) / 1000.
(* (dp/dd)_T *)
Definition e_dpdd := Rw * T * x * (2 * H_d H x y + x * H_dd H x y) / 1000.
Definition e_dvdp := - 1 / (d * d * e_dpdd).
Definition e_dvdt := e_dpdt / (d * d * e_dpdd).
Definition e_ec := d * e_dvdt.
Definition e_kt := - d * e_dvdp.
Definition e_joule := 1000 * (1 / d / e_cp) * (T * e_ec - 1).
End Formulas.
Hypothesis Hdc : dc <> 0.
Variables T d : R.
Hypothesis HT : T <> 0.
Hypothesis Hd : d <> 0.
Let x := d / dc. Let y := Tc / T.
Section Derivs.
Hypothesis ok : helmholtz_ok H x y.
Lemma h_d_d (k : R -> R -> R) (kd : R) : is_derive (fun x => k x y) x kd ->
  is_derive (fun d => k (d / dc) (Tc / T)) d (/ dc * kd).
Proof. intros D. apply (dcomp (fun x => k x y) (fun d => d / dc)); [exact D|apply ddivc]. Qed.
Lemma h_d_T (k : R -> R -> R) (kt : R) : is_derive (fun y => k x y) y kt ->
  is_derive (fun T => k (d / dc) (Tc / T)) T (- Tc / (T * T) * kt).
Proof. intros D. apply (dcomp (fun y => k x y) (fun T => Tc / T)); [exact D|now apply dinvc]. Qed.
Lemma he_f_d : is_derive (fun d => e_f T d) d (1000 * e_p T d / (d * d)).
Proof.
  unfold e_f. eapply dval; [apply (dmul (fun _ => Rw * T)); [apply dconst|apply h_d_d, (hok_d _ _ _ ok)]|].
  cbv beta. unfold e_p. fold dc Tc x y. unfold x at 3. field. auto.
Qed.
Lemma he_f_T : is_derive (fun T => e_f T d) T (- e_s T d).
Proof.
  unfold e_f. eapply dval.
  { apply (dmul (fun T => Rw * T) (fun T => H_0 H (d / dc) (Tc / T))).
    - apply (dmul (fun _ => Rw) (fun T => T)); [apply dconst|apply did].
    - apply h_d_T, (hok_t _ _ _ ok). }
  cbv beta. unfold e_s. fold dc Tc x y. unfold y. field. exact HT.
Qed.
Lemma he_u_T : is_derive (fun T => e_u T d) T (e_cv T d).
Proof.
  unfold e_u. eapply dval; [apply (dmul (fun _ => Rw * Tc)); [apply dconst|apply h_d_T, (hok_tt _ _ _ ok)]|].
  cbv beta. unfold e_cv. fold dc Tc x y. unfold y. field. exact HT.
Qed.
Lemma he_s_T : is_derive (fun T => e_s T d) T (e_cv T d / T).
Proof.
  unfold e_s. eapply dval.
  { apply (dmul (fun _ => Rw) (fun T => Tc / T * H_t H (d / dc) (Tc / T) - H_0 H (d / dc) (Tc / T))); [apply dconst|].
    apply (dsub (fun T => Tc / T * H_t H (d / dc) (Tc / T))); [|apply h_d_T, (hok_t _ _ _ ok)].
    apply (dmul (fun T => Tc / T)); [now apply dinvc|apply h_d_T, (hok_tt _ _ _ ok)]. }
  cbv beta. unfold e_cv. fold dc Tc x y. unfold y. field. exact HT.
Qed.
Lemma he_p_T : is_derive (fun T => e_p T d) T (e_dpdt T d).
Proof.
  unfold e_p. eapply dval.
  { apply (dmul (fun T => Rw * T * d * (d / dc) * H_d H (d / dc) (Tc / T)) (fun _ => / 1000)); [|apply dconst].
    apply (dmul (fun T => Rw * T * d * (d / dc))); [|apply h_d_T, (hok_dt _ _ _ ok)].
    apply (dmul (fun T => Rw * T * d) (fun _ => d / dc)); [|apply dconst].
    apply (dmul (fun T => Rw * T) (fun _ => d)); [|apply dconst].
    apply (dmul (fun _ => Rw) (fun T => T)); [apply dconst|apply did]. }
  cbv beta. unfold e_dpdt. fold dc Tc x y. unfold x, y. field. auto.
Qed.
Lemma he_p_d : is_derive (fun d => e_p T d) d (e_dpdd T d).
Proof.
  unfold e_p. eapply dval.
  { apply (dmul (fun d => Rw * T * d * (d / dc) * H_d H (d / dc) (Tc / T)) (fun _ => / 1000)); [|apply dconst].
    apply (dmul (fun d => Rw * T * d * (d / dc))); [|apply h_d_d, (hok_dd _ _ _ ok)].
    apply (dmul (fun d => Rw * T * d) (fun d => d / dc)); [|apply ddivc].
    apply (dmul (fun _ => Rw * T) (fun d => d)); [apply dconst|apply did]. }
  cbv beta. unfold e_dpdd. fold dc Tc x y. generalize (H_d H x y) (H_dd H x y). intros. unfold x. field. auto.
Qed.
End Derivs.
Lemma he_h : e_h T d = e_u T d + 1000 * e_p T d / d.
Proof. unfold e_h, e_u, e_p. fold dc Tc x y. unfold y. field. auto. Qed.
Lemma he_g : e_g T d = e_h T d - T * e_s T d.
Proof. unfold e_h, e_g, e_s. fold dc Tc x y. field. Qed.
Lemma he_f : e_f T d = e_u T d - T * e_s T d.
Proof. unfold e_u, e_f, e_s. fold dc Tc x y. unfold y. field. auto. Qed.
Let den := 2 * H_d H x y + x * H_dd H x y.
Lemma x_nz : x <> 0.
Proof. unfold x, Rdiv. apply Rmult_integral_contrapositive_currified; auto using Rinv_neq_0_compat. Qed.
Hypothesis Hden : den <> 0.
Lemma dpdd_nz : e_dpdd T d <> 0.
Proof.
  pose proof x_nz. unfold e_dpdd. fold dc Tc x y. fold den. unfold Rdiv. pose proof Rw_nz.
  repeat first [assumption | apply Rmult_integral_contrapositive_currified]; lra.
Qed.
Lemma he_dpdt : e_dpdt T d = e_ec T d / e_kt T d.
Proof. unfold e_ec, e_kt, e_dvdt, e_dvdp. pose proof dpdd_nz. field. auto. Qed.
Lemma he_dpdt2 : e_dpdt T d = - (e_dvdt T d / e_dvdp T d).
Proof. unfold e_dvdt, e_dvdp. pose proof dpdd_nz. field. auto. Qed.
Lemma he_mayer : e_cp T d - e_cv T d = 1000 * T * (1 / d) * e_ec T d ^ 2 / e_kt T d.
Proof.
  unfold e_ec, e_kt, e_dvdt, e_dvdp. pose proof dpdd_nz as N. 
  transitivity (1000 * T * (e_dpdt T d) ^ 2 / (d * d * e_dpdd T d)); [|field; auto].
  unfold e_cp, e_cv, e_dpdt, e_dpdd. fold dc Tc x y. fold den. pose proof Rw_nz. pose proof x_nz. field. auto.
Qed.
Lemma he_w2 : Tc <> 0 -> H_tt H x y <> 0 ->
  e_w2 T d = 1000 * 1000 * (1 / d) * (e_cp T d / e_cv T d) / e_kt T d.
Proof.
  intros HTc Htt. assert (y <> 0) by (unfold y, Rdiv; apply Rmult_integral_contrapositive_currified; auto using Rinv_neq_0_compat).
  unfold e_kt, e_dvdp. pose proof dpdd_nz as N.
  transitivity (1000 * 1000 * (e_cp T d / e_cv T d) * e_dpdd T d).
  2:{ assert (e_cv T d <> 0).
      { unfold e_cv. fold dc Tc x y. pose proof Rw_nz. repeat first [assumption | apply Rmult_integral_contrapositive_currified]; lra. }
      field. auto. }
  unfold e_w2, e_cp, e_cv, e_dpdd. fold dc Tc x y. fold den. pose proof Rw_nz. pose proof x_nz. field. auto.
Qed.
End Helmholtz.
