(* Region 2 for the region of (h,s): the slopes of the bounding polynomials and the values of
   the corner states. *)
From Coq Require Import ZArith List Bool Floats Reals Lra.
From Coquelicot Require Import Coquelicot.
From Interval Require Import Tactic.
From Verif Require Import Num RealInst FloatUp FloatErr RSums Taylor TaylorSum TaylorSub Enc1 Enc2 Enc2hs Enc2m SpecReal SatInv Bound1 Tree1 Bound2 Tree2 Bound2hs Bound2m.
Import ListNotations.
Open Scope R_scope.

(* ---- the polynomials and their derivatives ---- *)
Definition pab (z : R) : R := 26567852 / 10000 + z * (-2093857 / 10000 + z * (564629 / 10000 + z * (222357 / 10000 + z * (-574822 / 10000 + z * (472425 / 10000 + z * (-211603 / 10000 + z * (146334 / 10000 + z * (-43976 / 10000 + z * (-129121 / 10000 + z * (86136 / 10000)))))))))).
Definition dab (z : R) : R := -2093857 / 10000 + z * (1129258 / 10000 + z * (667071 / 10000 + z * (-2299288 / 10000 + z * (2362125 / 10000 + z * (-1269618 / 10000 + z * (1024338 / 10000 + z * (-351808 / 10000 + z * (-1162089 / 10000 + z * (861360 / 10000))))))))).
Definition pcb (z : R) : R := 26691763 / 10000 + z * (1575134 / 10000 + z * (-436351 / 10000 + z * (-48323 / 10000 + z * (19460 / 10000 + z * (4137 / 10000 + z * (-3993 / 10000)))))).
Definition dcb (z : R) : R := 1575134 / 10000 + z * (-872702 / 10000 + z * (-144969 / 10000 + z * (77840 / 10000 + z * (20685 / 10000 + z * (-23958 / 10000))))).
Lemma ab_eq z : P (map rrow tUab) 1 z = pab z.
Proof. unfold P. cbn. unfold Pos.to_nat. cbn. unfold pab. lra. Qed.
Lemma cb_eq z : P (map rrow tUcb) 1 z = pcb z.
Proof. unfold P. cbn. unfold Pos.to_nat. cbn. unfold pcb. lra. Qed.
Lemma ab_der z : is_derive pab z (dab z).
Proof. unfold pab, dab. auto_derive; [exact I|]. field. Qed.
Lemma cb_der z : is_derive pcb z (dcb z).
Proof. unfold pcb, dcb. auto_derive; [exact I|]. field. Qed.
Lemma dab_le z : -1 <= z <= 0.9985 -> dab z <= 453.
Proof. intros H. unfold dab. interval with (i_bisect z, i_depth 20, i_autodiff z). Qed.
Lemma dcb_le1 z : -0.611 <= z <= 1 -> dcb z <= 226.3.
Proof. intros H. unfold dcb. interval with (i_bisect z, i_depth 20, i_autodiff z). Qed.
Lemma dcb_le2 z : -1 <= z <= 1 -> dcb z <= 255.
Proof. intros H. unfold dcb. interval with (i_bisect z, i_depth 20, i_autodiff z). Qed.
Lemma slope_le (f df : R -> R) a b m : a <= b -> (forall x, a <= x <= b -> is_derive f x (df x)) -> (forall x, a <= x <= b -> df x <= m) -> f b - f a <= m * (b - a).
Proof.
  intros L D P. destruct (MVT_gen f a b df) as (c & Hc & E).
  - intros x Hx. rewrite Rmin_left, Rmax_right in Hx by lra. apply D. lra.
  - intros x Hx. rewrite Rmin_left, Rmax_right in Hx by lra. apply derivable_continuous_pt. exists (df x). apply is_derive_Reals, D. lra.
  - rewrite Rmin_left, Rmax_right in Hc by lra. specialize (P c ltac:(lra)). rewrite E. apply Rmult_le_compat_r; lra.
Qed.
Lemma Uab_slope a b : 5.84 <= a -> a <= b -> b <= 9.1575 -> Uabr b - Uabr a <= 273 * (b - a).
Proof.
  intros H1 H2 H3. unfold Uabr. rewrite !ab_eq.
  pose proof (slope_le pab dab (50 / 83 * a + -375 / 83) (50 / 83 * b + -375 / 83) 453 ltac:(lra) (fun x _ => ab_der x) (fun x Hx => dab_le x ltac:(lra))). lra.
Qed.
Lemma Ucb_slope1 a b : 5.1995 <= a -> a <= b -> b <= 5.86 -> Ucbr b - Ucbr a <= 552 * (b - a).
Proof.
  intros H1 H2 H3. unfold Ucbr. rewrite !cb_eq.
  pose proof (slope_le pcb dcb (100 / 41 * a + -545 / 41) (100 / 41 * b + -545 / 41) 226.3 ltac:(lra) (fun x _ => cb_der x) (fun x Hx => dcb_le1 x ltac:(lra))). lra.
Qed.
Lemma Ucb_slope2 a b : 5.04 <= a -> a <= b -> b <= 5.86 -> Ucbr b - Ucbr a <= 622 * (b - a).
Proof.
  intros H1 H2 H3. unfold Ucbr. rewrite !cb_eq.
  pose proof (slope_le pcb dcb (100 / 41 * a + -545 / 41) (100 / 41 * b + -545 / 41) 255 ltac:(lra) (fun x _ => cb_der x) (fun x Hx => dcb_le2 x ltac:(lra))). lra.
Qed.
Lemma U_join : Uabr 5.85 <= Ucbr 5.85 + / 16.
Proof. unfold Uabr, Ucbr. rewrite ab_eq, cb_eq. unfold pab, pcb. interval. Qed.

(* ---- values at corners ---- *)
Definition ptX (f : float) : tm := tlin 3 [(f, one)].
Definition ptY (g : float) : tm := tlin 3 [(g, one); ((-0.5)%float, one)].
Definition hpt (f g : float) : tm := hE 3 (ptX f) (ptY g).
Definition spt (f g : float) : tm := sE 3 (ptX f) (tln 3 (ptX f)) (ptY g).
Lemma z1 : Rabs 0 <= 1. Proof. rewrite Rabs_R0. lra. Qed.
Section Pt.
Variables (a : Z) (b : positive) (c : Z) (d : positive) (f g : float).
Hypothesis F : ratok a b f = true.
Hypothesis G : ratok c d g = true.
Let x := IZR a / IZR (Zpos b) * 1.
Let y := IZR c / IZR (Zpos d) * 1 + -5 / 10.
Hypothesis Px : 0 < x.
Hypothesis Py : 0 < y.
Let OX : ok 0 0 (ptX f) x.
Proof. apply (ok_lin1 0 0 z1 z1); [exact (ok_tone 0 0)|apply ratok_ok; exact F]. Qed.
Let OY : ok 0 0 (ptY g) y.
Proof. apply (lin_one 0 0 z1 z1); [exact (ok_tone 0 0)|exact G|vm_compute; reflexivity]. Qed.
Lemma hpt_ok : ok 0 0 (hpt f g) (hv x y).
Proof. exact (hE_ok 0 0 z1 z1 3 _ _ _ _ OX OY Py). Qed.
Lemma spt_ok : ok 0 0 (spt f g) (sv x y).
Proof. exact (sE_ok 0 0 z1 z1 3 _ _ _ _ _ OX (tln_ok _ _ 3 _ _ z1 z1 Px OX) OY Py). Qed.
End Pt.
Definition g1073 := 0x1.01a25246a27a0p-1%float.
Definition g863 := 0x1.4050ac0565dd0p-1%float. Definition g623 := 0x1.bbae6974db4b3p-1%float. Definition g273 := 0x1.fa187616c6389p+0%float.
Definition fmin := 0.000611212677444%float.
Ltac vr := vm_compute; reflexivity.
Lemma n_tp : sv 100 y8 < val f604.
Proof. pose proof (spt_ok 100 1 54000 107315 100%float g1073 ltac:(vr) ltac:(vr) ltac:(lra) ltac:(lra)) as O.
  replace (100 / 1 * 1) with 100 in O by lra. exact (ltc_ok 0 0 z1 z1 _ _ O f604 ltac:(vr)). Qed.
Definition y863 : R := 54000 / 86315 * 1 + -5 / 10.
Definition y623 : R := 54000 / 62315 * 1 + -5 / 10.
Definition y273 : R := 54000 / 27315 * 1 + -5 / 10.
Lemma n_23max : val f2812l < hv 100 y863 < val f2812h.
Proof. pose proof (hpt_ok 100 1 54000 86315 100%float g863 ltac:(vr) ltac:(vr) ltac:(lra)) as O.
  replace (100 / 1 * 1) with 100 in O by lra. split; [exact (gtc_ok 0 0 z1 z1 _ _ O f2812l ltac:(vr))|exact (ltc_ok 0 0 z1 z1 _ _ O f2812h ltac:(vr))]. Qed.
Lemma n_23min : hv (165291642526045 / 10000000000000) y623 < val f2563.
Proof. pose proof (hpt_ok 165291642526045 10000000000000 54000 62315 16.5291642526045%float g623 ltac:(vr) ltac:(vr) ltac:(lra)) as O.
  rewrite Rmult_1_r in O. exact (ltc_ok 0 0 z1 z1 _ _ O f2563 ltac:(vr)). Qed.
Definition pmin : R := 611212677444 / 1000000000000000.
Definition lnmin : tm := tadd (cst (-0x1.d99aaca7e8bfdp+2)%float) (TM [] 0x1p-40%float).
Lemma lnmin_ok : ok 0 0 lnmin (ln pmin).
Proof.
  replace (ln pmin) with (val (-0x1.d99aaca7e8bfdp+2)%float + (ln pmin - val (-0x1.d99aaca7e8bfdp+2)%float)) by ring. apply (ok_add 0 0 z1 z1); [apply ok_cst|].
  apply ok_err; [eapply fin_SF; vr|]. unfold pmin. flv. interval with (i_prec 80).
Qed.
Definition s4t : tm := sE 3 (ptX fmin) lnmin (ptY g273).
Lemma s4t_ok : ok 0 0 s4t (sv pmin y273).
Proof.
  apply (sE_ok 0 0 z1 z1); [|exact lnmin_ok| |unfold y273; lra].
  - replace pmin with (611212677444 / 1000000000000000 * 1) by (unfold pmin; lra). apply (ok_lin1 0 0 z1 z1); [exact (ok_tone 0 0)|apply (ratok_ok 611212677444 1000000000000000); vr].
  - apply (lin_one 0 0 z1 z1); [exact (ok_tone 0 0)|vr|vr].
Qed.
Lemma n_4v : 9.1 < sv pmin y273 /\ hv pmin y273 - 273.15 * sv pmin y273 <= - (97 / 32768).
Proof.
  pose proof s4t_ok as O1.
  pose proof (hpt_ok 611212677444 1000000000000000 54000 27315 fmin g273 ltac:(vr) ltac:(vr) ltac:(lra)) as O2. rewrite Rmult_1_r in O2. fold pmin y273 in O2.
  pose proof (gtc_ok 0 0 z1 z1 _ _ O1 0x1.24p+3%float ltac:(vr)) as A. split; [revert A; flv; lra|].
  pose proof (lneg_ok 0 0 z1 z1 _ _ (ok_lin3 0 0 z1 z1 3 _ _ _ _ _ _ _ _ _ _ _ _ O2 O1 (ok_tone 0 0) (ratok_ok 1 1 1%float ltac:(vr)) (ratok_ok (-27315) 100 (-273.15)%float ltac:(vr)) (ratok_ok 97 32768 G0 ltac:(vr))) ltac:(vr)). lra.
Qed.
Lemma n_hmax : hv pmin y8 < 4200.
Proof. pose proof (hpt_ok 611212677444 1000000000000000 54000 107315 fmin g1073 ltac:(vr) ltac:(vr) ltac:(lra)) as O. rewrite Rmult_1_r in O. fold pmin y8 in O.
  pose proof (ltc_ok 0 0 z1 z1 _ _ O 4200%float ltac:(vr)) as A. revert A. replace (val 4200%float) with 4200 by (flv; lra). lra. Qed.

