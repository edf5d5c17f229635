(* From the formulas of the regions to the answers of pt and tv over R. *)
From Coq Require Import ZArith List Bool Reals Lra Lia.
From Coquelicot Require Import Coquelicot.
From Verif Require Import Num RealInst Constant Reg1 Reg2 Reg5 Reg3Td Api Spec SpecThermo RealSat
  Gibbs GibbsModel GibbsModel5 GibbsModel3.
Open Scope R_scope.

Definition Kc : R := 27315 / 100.
Definition Gib (r : Z) : gibbs := if Z.eqb r 1 then Gib1 else if Z.eqb r 2 then Gib2 else Gib5.

Section Names.
Variables (r : Z) (p t : R).
Let G := Gib r. Let T := t + Kc.
Let gp := G_p G (p / G_ps G) (G_Ts G / T).
Let gpp := G_pp G (p / G_ps G) (G_Ts G / T).
Let gtt := G_tt G (p / G_ps G) (G_Ts G / T).
Let gpt := G_pt G (p / G_ps G) (G_Ts G / T).
Let y := G_Ts G / T.
Record facts := {
  a_ok : gibbs_ok G (p / G_ps G) (G_Ts G / T);
  a_v : ptR r OV p t = f_v G p T;
  a_h : ptR r OH p t = f_h G p T;
  a_s : ptR r OS p t = f_s G p T;
  a_u : ptR r OU p t = f_u G p T;
  a_g : ptR r OG p t = f_g G p T;
  a_f : ptR r OF p t = f_f G p T;
  a_cp : ptR r OCP p t = f_cp G p T;
  a_dvdt : ptR r ODVDT p t = f_dvdt G p T;
  a_dvdp : ptR r ODVDP p t = f_dvdp G p T;
  a_iJ : ptR r OIJTC p t = f_dhdp G p T / 1000;
  a_e : ptR r OE p t = f_h G p T - 27316 / 100 * f_s G p T;
  a_z : ptR r OZ p t = 1000 * p * f_v G p T / (Rw * T);
  a_dpdt : ptR r ODPDT p t = f_dpdt G p T;
  a_pc : ptR r OPC p t = f_dpdt G p T / p;
  a_kt : gp <> 0 -> ptR r OKT p t = f_kt G p T;
  a_ec : gp <> 0 -> ptR r OEC p t = f_ec G p T;
  a_j : gp <> 0 -> gtt <> 0 -> ptR r OJTC p t = f_joule G p T;
  a_al : gp <> 0 -> ptR r OALFAP p t = f_ec G p T / p / f_kt G p T;
  a_be : gp <> 0 -> ptR r OBETAP p t = 1 / (p * f_v G p T * f_kt G p T);
  a_cv : r <> 5%Z -> gpp <> 0 -> ptR r OCV p t = f_cv G p T;
  a_w : gp <> 0 -> gtt <> 0 -> (gp - y * gpt) ^ 2 / (y * y * gtt) - gpp <> 0 -> 0 <= f_w2 G p T ->
    ptR r OW p t ^ 2 = f_w2 G p T;
  a_ks : ptR r OKS p t = 10 / 10000000 * ptR r OW p t * ptR r OW p t / ptR r OV p t / p;
  a_fi : exists z, ptR r OFI p t = exp z;
  a_fu : ptR r OFU p t = p * ptR r OFI p t }.
End Names.

Lemma dom_T r p t : formula_domain r p t -> p <> 0 /\ t + Kc <> 0.
Proof. unfold Kc. intros (A & B & _). lra. Qed.
Lemma tau_pos c e T : 0 < T -> e * T < c -> c / T - e <> 0.
Proof.
  intros A B E. assert (c = e * T); [|lra]. apply (Rmult_eq_reg_r (/ T)); [|apply Rinv_neq_0_compat; lra].
  replace (e * T * / T) with e by (field; lra). unfold Rdiv in E. lra.
Qed.
Ltac api L := first [exact L | rewrite <- L by (assumption || lra); reflexivity].
Lemma facts1 p t : formula_domain 1 p t -> facts 1 p t.
Proof.
  intros D. destruct (dom_T _ _ _ D) as [Hp HT]. destruct D as (A & B & [(_ & C & D)|[[E _]|E]]); [|discriminate E..].
  change (t + 273.15) with (t + Kc) in *.
  assert (Hx : 71 / 10 - p / (1653 / 100) <> 0) by lra.
  assert (Hy : 13860 / 10 / (t + Kc) - 1222 / 1000 <> 0) by (apply tau_pos; lra).
  split.
  - apply Gib1_ok; assumption.
  - apply v1; assumption.
  - apply h1; assumption.
  - apply s1; assumption.
  - apply u1; assumption.
  - apply g1; assumption.
  - apply f1; assumption.
  - apply cp1; assumption.
  - apply dvdt1; assumption.
  - apply dvdp1; assumption.
  - apply dhdp1; assumption.
  - apply e1; assumption.
  - apply z1; assumption.
  - apply dpdt1; assumption.
  - apply pc1; assumption.
  - intros; apply kt1; assumption.
  - intros; apply ec1; assumption.
  - intros; apply joule1; assumption.
  - intros; apply alfap1; assumption.
  - intros; apply betap1; assumption.
  - intros; apply cv1; assumption.
  - intros; apply w1; assumption.
  - reflexivity.
  - eexists; reflexivity.
  - reflexivity.
Qed.
Lemma facts2 p t : formula_domain 2 p t -> facts 2 p t.
Proof.
  intros D. destruct (dom_T _ _ _ D) as [Hp HT]. destruct D as (A & B & [(E & _)|[[_ C]|E]]); [discriminate E| |discriminate E].
  change (t + 273.15) with (t + Kc) in *.
  assert (Hy : 5400 / 10 / (t + Kc) - 5 / 10 <> 0) by (apply tau_pos; lra).
  split.
  - change (G_ps (Gib 2)) with 1. apply Gib2_ok; try assumption; [lra|].
    change (G_Ts (Gib 2)) with (5400/10). unfold Rdiv. apply Rmult_integral_contrapositive_currified; [lra|now apply Rinv_neq_0_compat].
  - apply v2; assumption.
  - apply h2; assumption.
  - apply s2; assumption.
  - apply u2; assumption.
  - apply g2; assumption.
  - apply f2; assumption.
  - apply cp2; assumption.
  - apply dvdt2; assumption.
  - apply dvdp2; assumption.
  - apply dhdp2; assumption.
  - apply e2; assumption.
  - apply z2; assumption.
  - apply dpdt2; assumption.
  - apply pc2; assumption.
  - intros; apply kt2; assumption.
  - intros; apply ec2; assumption.
  - intros; apply joule2; assumption.
  - intros; apply alfap2; assumption.
  - intros; apply betap2; assumption.
  - intros; apply cv2; assumption.
  - intros; apply w2; assumption.
  - reflexivity.
  - eexists; reflexivity.
  - reflexivity.
Qed.
Lemma facts5 p t : formula_domain 5 p t -> facts 5 p t.
Proof.
  intros D. destruct (dom_T _ _ _ D) as [Hp HT]. destruct D as (A & B & _).
  change (t + 273.15) with (t + Kc) in *.
  split.
  - apply Gib5_ok; [change (G_ps (Gib 5)) with (10/10); lra|].
    change (G_Ts (Gib 5)) with (10000/10). unfold Rdiv. apply Rmult_integral_contrapositive_currified; [lra|now apply Rinv_neq_0_compat].
  - apply v5; assumption.
  - apply h5; assumption.
  - apply s5; assumption.
  - apply u5; assumption.
  - apply g5; assumption.
  - apply f5; assumption.
  - apply cp5; assumption.
  - apply dvdt5; assumption.
  - apply dvdp5; assumption.
  - apply dhdp5; assumption.
  - apply e5; assumption.
  - apply z5; assumption.
  - apply dpdt5; assumption.
  - apply pc5; assumption.
  - intros; apply kt5; assumption.
  - intros; apply ec5; assumption.
  - intros; apply joule5; assumption.
  - intros; apply alfap5; assumption.
  - intros; apply betap5; assumption.
  - intros E; now contradiction E.
  - intros; apply w5; assumption.
  - reflexivity.
  - eexists; reflexivity.
  - reflexivity.
Qed.
Lemma pt_facts r p t : formula_domain r p t -> facts r p t.
Proof.
  intros D. assert (E : (r = 1 \/ r = 2 \/ r = 5)%Z) by (destruct D as (_ & _ & [(E & _)|[[E _]|E]]); auto).
  destruct E as [->|[->| ->]]; [now apply facts1|now apply facts2|now apply facts5].
Qed.

Lemma Gib_ps r : G_ps (Gib r) <> 0.
Proof. unfold Gib. destruct (Z.eqb r 1); [|destruct (Z.eqb r 2)]; cbn [G_ps Gib1 Gib2 Gib5]; lra. Qed.
Lemma Gib_Ts r : G_Ts (Gib r) <> 0.
Proof. unfold Gib. destruct (Z.eqb r 1); [|destruct (Z.eqb r 2)]; cbn [G_Ts Gib1 Gib2 Gib5]; lra. Qed.

(* the domain is open in each variable *)
Lemma dom_loc_t r p t : formula_domain r p t -> locally t (fun t' => formula_domain r p t').
Proof.
  intros (A & B & C).
  assert (L0 : locally t (fun u => -273.15 < u)) by (apply (open_gt (-273.15) t); lra).
  assert (L : locally t (fun u => r = 1%Z /\ p < 7.1 * 16.53 /\ 1.222 * (u + 273.15) < 1386 \/
                                  r = 2%Z /\ u + 273.15 < 1080 \/ r = 5%Z)).
  { destruct C as [(E & C & D)|[[E C]|E]].
    - eapply filter_imp; [|apply (open_lt (1386 / 1.222 - 273.15) t); lra]. intros u Hu. cbv beta in Hu. left. repeat split; auto. lra.
    - eapply filter_imp; [|apply (open_lt (1080 - 273.15) t); lra]. intros u Hu. cbv beta in Hu. right; left. split; auto. lra.
    - eapply filter_imp; [|exact L0]. auto. }
  generalize (filter_and _ _ L0 L). apply filter_imp. intros u [H1 H2]. repeat split; auto. lra.
Qed.
Lemma dom_loc_p r p t : formula_domain r p t -> locally p (fun p' => formula_domain r p' t).
Proof.
  intros (A & B & C).
  assert (L0 : locally p (fun u => 0 < u)) by (apply (open_gt 0 p); lra).
  assert (L : locally p (fun u => r = 1%Z /\ u < 7.1 * 16.53 /\ 1.222 * (t + 273.15) < 1386 \/
                                  r = 2%Z /\ t + 273.15 < 1080 \/ r = 5%Z)).
  { destruct C as [(E & C & D)|[[E C]|E]].
    - eapply filter_imp; [|apply (open_lt (7.1 * 16.53) p); lra]. intros u Hu. cbv beta in Hu. left. repeat split; auto.
    - eapply filter_imp; [|exact L0]. auto.
    - eapply filter_imp; [|exact L0]. auto. }
  generalize (filter_and _ _ L0 L). apply filter_imp. intros u [H1 H2]. repeat split; auto.
Qed.
Lemma dt r o (f : R -> R -> R) p t (l : R) : formula_domain r p t ->
  (forall t, formula_domain r p t -> ptR r o p t = f p (t + Kc)) ->
  is_derive (fun T => f p T) (t + Kc) l -> is_derive (fun t => ptR r o p t) t l.
Proof.
  intros D E H. apply (is_derive_ext_loc (fun t => f p (t + Kc))).
  - eapply filter_imp; [|exact (dom_loc_t _ _ _ D)]. intros u Du. symmetry. now apply E.
  - eapply dval; [apply (dcomp (fun T => f p T) (fun t => t + Kc)); [exact H|]|].
    + apply (dadd (fun t => t) (fun _ => Kc)); [apply did|apply dconst].
    + ring.
Qed.
Lemma dp r o (f : R -> R -> R) p t (l : R) : formula_domain r p t ->
  (forall p, formula_domain r p t -> ptR r o p t = f p (t + Kc)) ->
  is_derive (fun p => f p (t + Kc)) p l -> is_derive (fun p => ptR r o p t) p l.
Proof.
  intros D E H. apply (is_derive_ext_loc (fun p => f p (t + Kc))).
  - eapply filter_imp; [|exact (dom_loc_p _ _ _ D)]. intros u Du. symmetry. now apply E.
  - exact H.
Qed.

Section Facts.
Variables (r : Z) (p t : R).
Hypothesis D : formula_domain r p t.
Let F := pt_facts r p t D.
Let Ok := a_ok _ _ _ F.
Lemma dG_dp : is_derive (fun p => ptR r OG p t) p (1000 * ptR r OV p t).
Proof.
  rewrite (a_v _ _ _ F). apply (dp _ _ (f_g (Gib r))); auto.
  - intros q Dq. apply (a_g _ _ _ (pt_facts _ _ _ Dq)).
  - apply g_p; auto using Gib_ps; apply (dom_T _ _ _ D).
Qed.
Lemma dG_dt : is_derive (fun t => ptR r OG p t) t (- ptR r OS p t).
Proof.
  rewrite (a_s _ _ _ F). apply (dt _ _ (f_g (Gib r))); auto.
  - intros q Dq. apply (a_g _ _ _ (pt_facts _ _ _ Dq)).
  - apply g_T; auto using Gib_ps; apply (dom_T _ _ _ D).
Qed.
Lemma dH_dt : is_derive (fun t => ptR r OH p t) t (ptR r OCP p t).
Proof.
  rewrite (a_cp _ _ _ F). apply (dt _ _ (f_h (Gib r))); auto.
  - intros q Dq. apply (a_h _ _ _ (pt_facts _ _ _ Dq)).
  - apply h_T; auto using Gib_ps; apply (dom_T _ _ _ D).
Qed.
Lemma dS_dt : is_derive (fun t => ptR r OS p t) t (ptR r OCP p t / (t + Kc)).
Proof.
  rewrite (a_cp _ _ _ F). apply (dt _ _ (f_s (Gib r))); auto.
  - intros q Dq. apply (a_s _ _ _ (pt_facts _ _ _ Dq)).
  - apply s_T; auto using Gib_ps; apply (dom_T _ _ _ D).
Qed.
Lemma dV_dt : is_derive (fun t => ptR r OV p t) t (ptR r ODVDT p t).
Proof.
  rewrite (a_dvdt _ _ _ F). apply (dt _ _ (f_v (Gib r))); auto.
  - intros q Dq. apply (a_v _ _ _ (pt_facts _ _ _ Dq)).
  - apply v_T; auto using Gib_ps; apply (dom_T _ _ _ D).
Qed.
Lemma dV_dp : is_derive (fun p => ptR r OV p t) p (ptR r ODVDP p t).
Proof.
  rewrite (a_dvdp _ _ _ F). apply (dp _ _ (f_v (Gib r))); auto.
  - intros q Dq. apply (a_v _ _ _ (pt_facts _ _ _ Dq)).
  - apply v_p; auto using Gib_ps; apply (dom_T _ _ _ D).
Qed.
Lemma dS_dp : is_derive (fun p => ptR r OS p t) p (- 1000 * ptR r ODVDT p t).
Proof.
  rewrite (a_dvdt _ _ _ F). apply (dp _ _ (f_s (Gib r))); auto.
  - intros q Dq. apply (a_s _ _ _ (pt_facts _ _ _ Dq)).
  - apply s_p; auto using Gib_ps; apply (dom_T _ _ _ D).
Qed.
Lemma dH_dp : is_derive (fun p => ptR r OH p t) p (1000 * ptR r OIJTC p t).
Proof.
  rewrite (a_iJ _ _ _ F). apply (dp _ _ (f_h (Gib r))); auto.
  - intros q Dq. apply (a_h _ _ _ (pt_facts _ _ _ Dq)).
  - replace (1000 * (f_dhdp (Gib r) p (t + Kc) / 1000)) with (f_dhdp (Gib r) p (t + Kc)) by field.
    apply h_p; auto using Gib_ps; apply (dom_T _ _ _ D).
Qed.
Lemma id_h : ptR r OH p t = ptR r OU p t + 1000 * p * ptR r OV p t.
Proof. rewrite (a_h _ _ _ F), (a_u _ _ _ F), (a_v _ _ _ F). apply i_h; auto using Gib_ps; apply (dom_T _ _ _ D). Qed.
Lemma id_g : ptR r OG p t = ptR r OH p t - (t + 273.15) * ptR r OS p t.
Proof. rewrite (a_h _ _ _ F), (a_s _ _ _ F), (a_g _ _ _ F). apply i_g; auto using Gib_ps; apply (dom_T _ _ _ D). Qed.
Lemma id_f : ptR r OF p t = ptR r OU p t - (t + 273.15) * ptR r OS p t.
Proof. rewrite (a_u _ _ _ F), (a_s _ _ _ F), (a_f _ _ _ F). apply i_f; auto using Gib_ps; apply (dom_T _ _ _ D). Qed.
Lemma id_z : ptR r OZ p t = 1000 * p * ptR r OV p t / (0.461526 * (t + 273.15)).
Proof. rewrite (a_z _ _ _ F), (a_v _ _ _ F). reflexivity. Qed.
Lemma id_e : ptR r OE p t = ptR r OH p t - 273.16 * ptR r OS p t.
Proof. rewrite (a_e _ _ _ F), (a_h _ _ _ F), (a_s _ _ _ F). reflexivity. Qed.
Lemma id_ks : ptR r OKS p t = ptR r OW p t ^ 2 / (1000000 * p * ptR r OV p t).
Proof.
  rewrite (a_ks _ _ _ F). destruct (dom_T _ _ _ D) as [Hp _]. unfold Rdiv. rewrite !Rinv_mult. generalize (/ ptR r OV p t). intros. field. auto.
Qed.

Let G := Gib r. Let T := t + Kc.
Let x := p / G_ps G. Let y := G_Ts G / T.
Lemma Tnz : T <> 0. Proof. apply (dom_T _ _ _ D). Qed.
Lemma nz_v : ptR r OV p t <> 0 -> G_p G x y <> 0.
Proof. rewrite (a_v _ _ _ F). exact (proj1 (v_nz G (Gib_ps r) p T Tnz)). Qed.
Lemma nz_dvdp : ptR r ODVDP p t <> 0 -> G_pp G x y <> 0.
Proof. rewrite (a_dvdp _ _ _ F). exact (proj1 (dvdp_nz G (Gib_ps r) p T Tnz)). Qed.
Lemma nz_cp : ptR r OCP p t <> 0 -> G_tt G x y <> 0.
Proof. rewrite (a_cp _ _ _ F). unfold f_cp. fold G T x y. intros H E. apply H. rewrite E. ring. Qed.
Section C.
Hypothesis Hv : ptR r OV p t <> 0.
Let Hgp := nz_v Hv.
Lemma id_ec : ptR r OEC p t = ptR r ODVDT p t / ptR r OV p t.
Proof. rewrite (a_ec _ _ _ F), (a_dvdt _ _ _ F), (a_v _ _ _ F) by exact Hgp. apply i_ec; auto using Gib_ps, Tnz. Qed.
Lemma id_kt : ptR r OKT p t = - ptR r ODVDP p t / ptR r OV p t.
Proof.
  rewrite (a_kt _ _ _ F), (a_dvdp _ _ _ F), (a_v _ _ _ F) by exact Hgp. rewrite i_kt; auto using Gib_ps, Tnz. unfold Rdiv. ring.
Qed.
Lemma id_be : ptR r OBETAP p t = 1 / (p * ptR r OV p t * ptR r OKT p t).
Proof. now rewrite (a_be _ _ _ F), (a_v _ _ _ F), (a_kt _ _ _ F) by exact Hgp. Qed.
Section C2.
Hypothesis Hc : ptR r ODVDP p t <> 0.
Let Hgpp := nz_dvdp Hc.
Lemma id_dpdt : ptR r ODPDT p t = ptR r OEC p t / ptR r OKT p t.
Proof. rewrite (a_ec _ _ _ F), (a_dpdt _ _ _ F), (a_kt _ _ _ F) by exact Hgp. apply i_dpdt_ec; auto using Gib_ps, Gib_Ts, Tnz. Qed.
Lemma id_dpdt2 : ptR r ODPDT p t = - ptR r ODVDT p t / ptR r ODVDP p t.
Proof.
  rewrite (a_dpdt _ _ _ F), (a_dvdt _ _ _ F), (a_dvdp _ _ _ F). rewrite i_dpdt; auto using Gib_ps, Gib_Ts, Tnz. unfold Rdiv. ring.
Qed.
Lemma id_pc : ptR r OPC p t = ptR r ODPDT p t / p.
Proof. rewrite (a_pc _ _ _ F), (a_dpdt _ _ _ F). reflexivity. Qed.
Lemma id_al : ptR r OALFAP p t = ptR r ODPDT p t / p.
Proof.
  rewrite id_dpdt. rewrite (a_ec _ _ _ F), (a_al _ _ _ F), (a_kt _ _ _ F) by exact Hgp. unfold Rdiv. ring.
Qed.
Lemma id_mayer : r <> 5%Z -> ptR r OCP p t - ptR r OCV p t = 1000 * (t + 273.15) * ptR r OV p t * ptR r OEC p t ^ 2 / ptR r OKT p t.
Proof.
  intros R5. rewrite (a_cp _ _ _ F), (a_cv _ _ _ F), (a_v _ _ _ F), (a_ec _ _ _ F), (a_kt _ _ _ F) by first [exact Hgp | exact Hgpp | exact R5].
  apply i_mayer; auto using Gib_ps, Tnz.
Qed.
Section C3.
Hypothesis Hcp : ptR r OCP p t <> 0.
Let Hgtt := nz_cp Hcp.
Lemma id_j : ptR r OJTC p t * ptR r OCP p t = - (1000 * ptR r OIJTC p t).
Proof.
  rewrite (a_j _ _ _ F), (a_cp _ _ _ F), (a_iJ _ _ _ F) by first [exact Hgp | exact Hgtt].
  rewrite i_jtc; auto using Gib_ps, Gib_Ts, Tnz. field.
Qed.
(* the heat capacity at constant volume that the Mayer relation gives *)
Let cvm := ptR r OCP p t - 1000 * (t + 273.15) * ptR r OV p t * ptR r OEC p t ^ 2 / ptR r OKT p t.
Lemma cvm_eq : cvm = f_cv G p T.
Proof.
  unfold cvm. rewrite (a_cp _ _ _ F), (a_v _ _ _ F), (a_ec _ _ _ F), (a_kt _ _ _ F) by exact Hgp.
  pose proof (i_mayer G (Gib_ps r) p T Tnz Hgp Hgpp) as M. fold G T. change (t + 273.15) with T. lra.
Qed.
Lemma id_w : cvm <> 0 -> 0 <= ptR r OV p t * (ptR r OCP p t / cvm) / ptR r OKT p t ->
  ptR r OW p t ^ 2 = 1000000 * ptR r OV p t * (ptR r OCP p t / cvm) / ptR r OKT p t.
Proof.
  rewrite cvm_eq. rewrite (a_cp _ _ _ F), (a_v _ _ _ F), (a_kt _ _ _ F) by exact Hgp. fold G T. intros Hcv H0.
  pose proof (i_w2 G (Gib_ps r) p T Tnz (Gib_Ts r) Hgp Hgpp Hcv Hgtt) as W.
  rewrite (a_w _ _ _ F); fold G T x y; [rewrite W; lra|exact Hgp|exact Hgtt| |rewrite W; lra].
  intros E. apply Hcv. unfold f_cv. fold G T x y.
  assert (Hy : y <> 0) by (unfold y, Rdiv; apply Rmult_integral_contrapositive_currified; [apply Gib_Ts|apply Rinv_neq_0_compat, Tnz]).
  replace ((G_p G x y - y * G_pt G x y) ^ 2) with (G_pp G x y * (y * y * G_tt G x y)); [field; exact Hgpp|].
  assert (E' : (G_p G x y - y * G_pt G x y) ^ 2 / (y * y * G_tt G x y) = G_pp G x y) by lra.
  rewrite <- E'. field. auto.
Qed.
End C3.
End C2.
End C.
Lemma id_fu : ptR r OFU p t = p * ptR r OFI p t.
Proof. apply (a_fu _ _ _ F). Qed.
Lemma id_fi : 0 < ptR r OFI p t.
Proof. destruct (a_fi _ _ _ F) as [z ->]. apply exp_pos. Qed.
End Facts.
Lemma id_w_cv r p t : formula_domain r p t -> r <> 5%Z ->
  ptR r OV p t <> 0 -> ptR r ODVDP p t <> 0 -> ptR r OCP p t <> 0 -> ptR r OCV p t <> 0 ->
  0 <= ptR r OV p t * (ptR r OCP p t / ptR r OCV p t) / ptR r OKT p t ->
  ptR r OW p t ^ 2 = 1000000 * ptR r OV p t * (ptR r OCP p t / ptR r OCV p t) / ptR r OKT p t.
Proof.
  intros D R5 Hv Hp Hc Hcv.
  assert (E : ptR r OCV p t = ptR r OCP p t - 1000 * (t + 273.15) * ptR r OV p t * ptR r OEC p t ^ 2 / ptR r OKT p t).
  { pose proof (id_mayer r p t D Hv Hp R5). lra. }
  rewrite E in *. now apply id_w.
Qed.
Lemma jtc_derive r p t : formula_domain r p t -> ptR r OV p t <> 0 -> ptR r OCP p t <> 0 ->
  is_derive (fun p => ptR r OH p t) p (- (ptR r OJTC p t * ptR r OCP p t)).
Proof. intros D Hv Hc. rewrite id_j by assumption. rewrite Ropp_involutive. now apply dH_dp. Qed.
