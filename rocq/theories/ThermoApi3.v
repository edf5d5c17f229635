(* Region 3: from the Helmholtz formulas to the answers of tv over R. *)
From Coq Require Import ZArith List Bool Reals Lra Lia.
From Coquelicot Require Import Coquelicot.
From Verif Require Import Num RealInst Constant Reg3Td Api Spec SpecThermo RealSat RSums
  Gibbs GibbsModel GibbsModel3 Region Control ThermoApi.
Open Scope R_scope.

Lemma he_h_d H T d : H_dc H <> 0 -> T <> 0 -> d <> 0 -> helmholtz_ok H (d / H_dc H) (H_Tc H / T) ->
  is_derive (fun d => e_h H T d) d (1000 / d * (e_dpdd H T d - T * e_dpdt H T d / d)).
Proof.
  intros Hdc HT Hd ok. unfold e_h. eapply dval.
  { apply (dmul (fun _ => Rw * T) (fun d => H_Tc H / T * H_t H (d / H_dc H) (H_Tc H / T) + d / H_dc H * H_d H (d / H_dc H) (H_Tc H / T))); [apply dconst|].
    apply (dadd (fun d => H_Tc H / T * H_t H (d / H_dc H) (H_Tc H / T))).
    - apply (dmul (fun _ => H_Tc H / T)); [apply dconst|apply h_d_d, (hok_td _ _ _ ok)].
    - apply (dmul (fun d => d / H_dc H)); [apply ddivc|apply h_d_d, (hok_dd _ _ _ ok)]. }
  cbv beta. unfold e_dpdd, e_dpdt. set (x := d / H_dc H). set (y := H_Tc H / T).
  generalize (H_t H x y) (H_d H x y) (H_dd H x y) (H_dt H x y). intros. unfold x. field. auto.
Qed.

Section F3.
Variables t v : R.
Hypothesis D : formula_domain3 t v.
Let T := t + Kc. Let d := 10 / 10 / v.
Lemma Tp : 0 < T. Proof. destruct D as [A _]. unfold T, Kc. lra. Qed.
Lemma T3nz : T <> 0. Proof. pose proof Tp. lra. Qed.
Lemma vnz : v <> 0. Proof. destruct D as [_ A]. lra. Qed.
Lemma dpos : 0 < d. Proof. unfold d. destruct D as [_ A]. apply Rdiv_lt_0_compat; lra. Qed.
Lemma d3nz : d <> 0. Proof. pose proof dpos. lra. Qed.
Lemma dv : 1 / d = v. Proof. unfold d. pose proof vnz. field. auto. Qed.
Lemma dv' : d = 1 / v. Proof. unfold d. pose proof vnz. field. auto. Qed.
Lemma ok3 : helmholtz_ok Helm3 (d / H_dc Helm3) (H_Tc Helm3 / T).
Proof.
  apply Helm3_ok.
  - rewrite dc3. apply Rdiv_lt_0_compat; [apply dpos|lra].
  - rewrite Tc3. apply Hy_3, T3nz.
Qed.
Lemma b_p : tvR OP t v = e_p Helm3 T d. Proof. apply p3; auto using T3nz, d3nz. Qed.
Lemma b_u : tvR OU t v = e_u Helm3 T d. Proof. apply u3; auto using T3nz, d3nz. Qed.
Lemma b_s : tvR OS t v = e_s Helm3 T d. Proof. apply s3; auto using T3nz, d3nz. Qed.
Lemma b_h : tvR OH t v = e_h Helm3 T d. Proof. apply h3; auto using T3nz, d3nz. Qed.
Lemma b_g : tvR OG t v = e_g Helm3 T d. Proof. apply g3; auto using T3nz, d3nz. Qed.
Lemma b_f : tvR OF t v = e_f Helm3 T d. Proof. apply f3; auto using T3nz, d3nz. Qed.
Lemma b_cv : tvR OCV t v = e_cv Helm3 T d. Proof. apply cv3; auto using T3nz, d3nz. Qed.
Lemma b_dpdt : tvR ODPDT t v = e_dpdt Helm3 T d. Proof. apply dpdt3; auto using T3nz, d3nz. Qed.
Lemma i3_h : tvR OH t v = tvR OU t v + 1000 * tvR OP t v * v.
Proof. rewrite b_h, b_u, b_p, he_h; rewrite ?dc3; auto using T3nz, d3nz; try lra. rewrite <- dv. field. apply d3nz. Qed.
Lemma i3_g : tvR OG t v = tvR OH t v - (t + 273.15) * tvR OS t v.
Proof. rewrite b_g, b_h, b_s. apply he_g. Qed.
Lemma i3_f : tvR OF t v = tvR OU t v - (t + 273.15) * tvR OS t v.
Proof. rewrite b_f, b_u, b_s. apply he_f; auto using T3nz. Qed.
Lemma i3_z : tvR OZ t v = 1000 * tvR OP t v * v / (0.461526 * (t + 273.15)).
Proof. rewrite b_p. transitivity (1000 * e_p Helm3 T d * (1 / d) / (Rw * T)); [apply z3; auto using T3nz, d3nz|]. rewrite dv. reflexivity. Qed.
(* the exergy formula of region 3, and how far it is from h - 273.16 s *)
Lemma i3_e : tvR OE t v = tvR OH t v - 273.16 * tvR OS t v
  + (t + 273.15 - 273.16) * (1 - 647.096 / (t + 273.15)) * (tvR OF t v / (t + 273.15)).
Proof.
  rewrite b_h, b_s, b_f. change (t + 273.15) with T.
  transitivity (e_g Helm3 T d + (T - 27316/100) * (647096 / 1000 / T * (Rw * (H_t Helm3 (d / (3220 / 10)) (647096 / 1000 / T) - H_0 Helm3 (d / (3220 / 10)) (647096 / 1000 / T))))).
  - apply e3; auto using T3nz, d3nz.
  - rewrite he_g. unfold e_s, e_f. rewrite dc3, Tc3. pose proof T3nz.
    generalize (H_t Helm3 (d / (3220 / 10)) (647096 / 1000 / T)) (H_0 Helm3 (d / (3220 / 10)) (647096 / 1000 / T)) (e_h Helm3 T d). intros.
    change 273.16 with (27316/100). change 647.096 with (647096/1000). field. auto.
Qed.
Lemma i3_ks : tvR OKS t v = tvR OW t v ^ 2 / (1000000 * tvR OP t v * v).
Proof.
  transitivity (10 / 10000000 * tvR OW t v * tvR OW t v * d / tvR OP t v); [reflexivity|].
  rewrite dv'. unfold Rdiv. rewrite !Rinv_mult. generalize (/ tvR OP t v). pose proof vnz. intros. field. auto.
Qed.
Lemma i3_fu : tvR OFU t v = tvR OP t v * tvR OFI t v. Proof. reflexivity. Qed.
Lemma i3_fi : 0 < tvR OFI t v. Proof. apply exp_pos. Qed.
Let hd := H_d Helm3 (d / H_dc Helm3) (H_Tc Helm3 / T).
Let hdd := H_dd Helm3 (d / H_dc Helm3) (H_Tc Helm3 / T).
(* in the totalised reals a zero denominator would make ODVDP zero *)
Lemma nz3 : tvR ODVDP t v <> 0 -> 2 * hd + d / H_dc Helm3 * hdd <> 0.
Proof.
  intros H E. apply H.
  transitivity (@Td2dvdpct_reg3 RArith T d); [reflexivity|]. unfold Td2dvdpct_reg3.
  cbv beta zeta delta [RGAS_WATER TC_WATER DC_WATER]. rnum. rewrite p3_d, p3_dd.
  unfold hd, hdd in E. rewrite dc3, Tc3 in E. cbn [H_d H_dd Helm3] in E.
  match goal with |- context [20/10 * ?a + ?b] => replace (20/10 * a + b) with 0 by lra end.
  unfold Rdiv. rewrite Rmult_0_r, Rinv_0. ring.
Qed.
Section C.
Hypothesis Hc : tvR ODVDP t v <> 0.
Let Hn := nz3 Hc.
Lemma b_dvdp : tvR ODVDP t v = e_dvdp Helm3 T d. Proof. apply dvdp3; auto using T3nz, d3nz. Qed.
Lemma b_dvdt : tvR ODVDT t v = e_dvdt Helm3 T d. Proof. apply dvdt3; auto using T3nz, d3nz. Qed.
Lemma b_cp : tvR OCP t v = e_cp Helm3 T d. Proof. apply cp3; auto using T3nz, d3nz. Qed.
Lemma b_kt : tvR OKT t v = e_kt Helm3 T d. Proof. apply kt3; auto using T3nz, d3nz. Qed.
Lemma b_ec : tvR OEC t v = e_ec Helm3 T d. Proof. apply ec3; auto using T3nz, d3nz. Qed.
Lemma i3_ec : tvR OEC t v = tvR ODVDT t v / v.
Proof. rewrite b_ec, b_dvdt. unfold e_ec. rewrite dv'. pose proof vnz. field. auto. Qed.
Lemma i3_kt : tvR OKT t v = - tvR ODVDP t v / v.
Proof. rewrite b_kt, b_dvdp. unfold e_kt. rewrite dv' at 1. pose proof vnz. field. auto. Qed.
Lemma i3_dpdt : tvR ODPDT t v = tvR OEC t v / tvR OKT t v.
Proof. rewrite b_dpdt, b_ec, b_kt. apply he_dpdt; rewrite ?dc3; auto using T3nz, d3nz; lra. Qed.
Lemma i3_dpdt2 : tvR ODPDT t v = - tvR ODVDT t v / tvR ODVDP t v.
Proof. rewrite b_dpdt, b_dvdt, b_dvdp. rewrite he_dpdt2; rewrite ?dc3; auto using T3nz, d3nz; try lra; unfold Rdiv; ring. Qed.
Lemma i3_mayer : tvR OCP t v - tvR OCV t v = 1000 * (t + 273.15) * v * tvR OEC t v ^ 2 / tvR OKT t v.
Proof.
  rewrite b_cp, b_cv, b_ec, b_kt. rewrite he_mayer; rewrite ?dc3; auto using T3nz, d3nz; try lra. rewrite dv. reflexivity.
Qed.
Lemma i3_w : tvR OCV t v <> 0 -> 0 <= v * (tvR OCP t v / tvR OCV t v) / tvR OKT t v ->
  tvR OW t v ^ 2 = 1000000 * v * (tvR OCP t v / tvR OCV t v) / tvR OKT t v.
Proof.
  rewrite b_cp, b_cv, b_kt. intros Hcv H0.
  assert (Ht : H_tt Helm3 (d / H_dc Helm3) (H_Tc Helm3 / T) <> 0).
  { intros E. apply Hcv. unfold e_cv. rewrite E. ring. }
  assert (W : e_w2 Helm3 T d = 1000 * 1000 * (1 / d) * (e_cp Helm3 T d / e_cv Helm3 T d) / e_kt Helm3 T d).
  { apply he_w2; rewrite ?dc3, ?Tc3; auto using T3nz, d3nz; lra. }
  rewrite dv in W. transitivity (e_w2 Helm3 T d); [|rewrite W; lra].
  apply w3; auto using T3nz, d3nz. rewrite W. lra.
Qed.
Lemma i3_j : tvR OCP t v <> 0 -> tvR OJTC t v * tvR OCP t v = 1000 * ((t + 273.15) * tvR ODVDT t v - v).
Proof.
  rewrite b_cp. intros H. rewrite b_dvdt. transitivity (e_joule Helm3 T d * e_cp Helm3 T d).
  - f_equal. apply joule3; auto using T3nz, d3nz.
  - unfold e_joule, e_ec. generalize dependent (e_cp Helm3 T d). generalize (e_dvdt Helm3 T d). intros.
    rewrite dv'. pose proof vnz. change (t + 273.15) with T. field. auto.
Qed.
Lemma i3_ij : tvR OCP t v <> 0 -> 1000 * tvR OIJTC t v = - (tvR OJTC t v * tvR OCP t v).
Proof.
  intros H. transitivity (1000 * (- tvR OCP t v * tvR OJTC t v / (10000/10))); [reflexivity|]. field.
Qed.
Section P.
Hypothesis Hp : tvR OP t v <> 0.
Lemma i3_pc : tvR OPC t v = tvR ODPDT t v / tvR OP t v.
Proof. rewrite b_dpdt. rewrite b_p in *. apply pc3; auto using T3nz, d3nz. Qed.
Lemma i3_al : tvR OALFAP t v = tvR ODPDT t v / tvR OP t v.
Proof.
  rewrite i3_dpdt, b_ec, b_kt. rewrite b_p in *. transitivity (e_ec Helm3 T d / e_p Helm3 T d / e_kt Helm3 T d); [apply alfap3; auto using T3nz, d3nz|].
  unfold Rdiv. ring.
Qed.
Lemma i3_be : tvR OBETAP t v = 1 / (tvR OP t v * v * tvR OKT t v).
Proof.
  rewrite b_kt. rewrite b_p. transitivity (d / (e_p Helm3 T d * e_kt Helm3 T d)); [apply betap3; auto using T3nz, d3nz|].
  rewrite dv'. unfold Rdiv. rewrite !Rinv_mult. ring.
Qed.
End P.
End C.
End F3.

Lemma dom3_loc_t t v : formula_domain3 t v -> locally t (fun t' => formula_domain3 t' v).
Proof.
  intros (A & B). eapply filter_imp; [|apply (open_gt (-273.15) t); lra]. intros u Hu. cbv beta in Hu. split; lra.
Qed.
Lemma dom3_loc_v t v : formula_domain3 t v -> locally v (fun v' => formula_domain3 t v').
Proof.
  intros (A & B). eapply filter_imp; [|apply (open_gt 0 v); lra]. intros u Hu. cbv beta in Hu. split; lra.
Qed.
Lemma dt3 o (f : R -> R -> R) t v (l : R) : formula_domain3 t v ->
  (forall t, formula_domain3 t v -> tvR o t v = f (t + Kc) (10 / 10 / v)) ->
  is_derive (fun T => f T (10 / 10 / v)) (t + Kc) l -> is_derive (fun t => tvR o t v) t l.
Proof.
  intros D E H. apply (is_derive_ext_loc (fun t => f (t + Kc) (10 / 10 / v))).
  - eapply filter_imp; [|exact (dom3_loc_t _ _ D)]. intros u Du. symmetry. now apply E.
  - eapply dval; [apply (dcomp (fun T => f T (10 / 10 / v)) (fun t => t + Kc)); [exact H|]|].
    + apply (dadd (fun t => t) (fun _ => Kc)); [apply did|apply dconst].
    + ring.
Qed.
Lemma dv3 o (f : R -> R -> R) t v (l : R) : formula_domain3 t v ->
  (forall v, formula_domain3 t v -> tvR o t v = f (t + Kc) (10 / 10 / v)) ->
  is_derive (fun d => f (t + Kc) d) (10 / 10 / v) l -> is_derive (fun v => tvR o t v) v (- l / (v * v)).
Proof.
  intros D E H. apply (is_derive_ext_loc (fun v => f (t + Kc) (10 / 10 / v))).
  - eapply filter_imp; [|exact (dom3_loc_v _ _ D)]. intros u Du. symmetry. now apply E.
  - eapply dval; [apply (dcomp (fun d => f (t + Kc) d) (fun v => 10 / 10 / v)); [exact H|apply dinvc]|].
    + apply (vnz t v D).
    + pose proof (vnz t v D). field. auto.
Qed.
Section Der3.
Variables t v : R.
Hypothesis D : formula_domain3 t v.
Lemma F_v : is_derive (fun v => tvR OF t v) v (- (1000 * tvR OP t v)).
Proof.
  pose proof (vnz t v D) as Hv. pose proof (d3nz t v D). pose proof (T3nz t v D).
  eapply dval; [apply (dv3 OF (e_f Helm3)); [exact D|intros; now apply b_f|apply he_f_d; auto; [rewrite dc3; lra|now apply ok3]]|].
  rewrite (b_p t v D). set (q := e_p Helm3 (t + Kc) (10 / 10 / v)). field. auto.
Qed.
Lemma F_t : is_derive (fun t => tvR OF t v) t (- tvR OS t v).
Proof.
  rewrite (b_s t v D). apply (dt3 OF (e_f Helm3)); [exact D|intros; now apply b_f|].
  apply he_f_T; [apply (T3nz t v D)|now apply ok3].
Qed.
Lemma U_t : is_derive (fun t => tvR OU t v) t (tvR OCV t v).
Proof.
  rewrite (b_cv t v D). apply (dt3 OU (e_u Helm3)); [exact D|intros; now apply b_u|].
  apply he_u_T; [apply (T3nz t v D)|now apply ok3].
Qed.
Lemma S_t : is_derive (fun t => tvR OS t v) t (tvR OCV t v / (t + 273.15)).
Proof.
  rewrite (b_cv t v D). apply (dt3 OS (e_s Helm3)); [exact D|intros; now apply b_s|].
  apply he_s_T; [apply (T3nz t v D)|now apply ok3].
Qed.
Lemma P_t : is_derive (fun t => tvR OP t v) t (tvR ODPDT t v).
Proof.
  rewrite (b_dpdt t v D). apply (dt3 OP (e_p Helm3)); [exact D|intros; now apply b_p|].
  apply he_p_T; [rewrite dc3; lra|apply (T3nz t v D)|now apply ok3].
Qed.
Hypothesis Hc : tvR ODVDP t v <> 0.
Let Hn := nz3 t v Hc.
Lemma dpdd3 : e_dpdd Helm3 (t + Kc) (10 / 10 / v) <> 0.
Proof. apply dpdd_nz; auto; [rewrite dc3; lra|apply (T3nz t v D)|apply (d3nz t v D)]. Qed.
Lemma P_v : is_derive (fun v => tvR OP t v) v (/ tvR ODVDP t v).
Proof.
  pose proof (vnz t v D) as Hv. pose proof dpdd3 as N.
  eapply dval; [apply (dv3 OP (e_p Helm3)); [exact D|intros; now apply b_p|apply he_p_d; [rewrite dc3; lra|now apply ok3]]|].
  rewrite b_dvdp by assumption. unfold e_dvdp. generalize dependent (e_dpdd Helm3 (t + Kc) (10 / 10 / v)). intros. field. auto.
Qed.
Lemma H_v : tvR OCP t v <> 0 -> is_derive (fun v => tvR OH t v) v (1000 * tvR OIJTC t v / tvR ODVDP t v).
Proof.
  intros Hcp. pose proof (vnz t v D) as Hv. pose proof dpdd3 as N.
  eapply dval; [apply (dv3 OH (e_h Helm3)); [exact D|intros; now apply b_h|apply he_h_d; [rewrite dc3; lra|apply (T3nz t v D)|apply (d3nz t v D)|now apply ok3]]|].
  rewrite i3_ij, i3_j, b_dvdt, b_dvdp by assumption. unfold e_dvdp, e_dvdt. change (t + 273.15) with (t + Kc).
  generalize dependent (e_dpdd Helm3 (t + Kc) (10 / 10 / v)). generalize (e_dpdt Helm3 (t + Kc) (10 / 10 / v)). intros. field. auto.
Qed.
End Der3.
Lemma tv3_some fuel o t v : exists x, @tv RArith fuel t v (from_pair (o, 3%Z)) = Some x /\
  @tv RArith 1 t v (from_pair (o, 3%Z)) = Some x.
Proof.
  change (@tv RArith fuel t v (from_pair (o, 3%Z))) with (@call RArith fuel TV t v (from_pair (o, 3%Z))).
  change (@tv RArith 1 t v (from_pair (o, 3%Z))) with (@call RArith 1 TV t v (from_pair (o, 3%Z))).
  rewrite !call_dispatch. unfold dispatch. change (Z.eqb 3 REGION_NONE) with false. cbv iota.
  destruct (Z.eqb o (id1 TV)); [eexists; split; reflexivity|]. destruct (Z.eqb o (id2 TV)); [eexists; split; reflexivity|].
  destruct (Z.eqb o OR); [eexists; split; reflexivity|]. destruct (Z.eqb o OX); [eexists; split; reflexivity|]. eexists. split; reflexivity.
Qed.
