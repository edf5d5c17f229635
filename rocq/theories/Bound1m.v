(* The enclosures of Enc1m are correct. *)
From Coq Require Import ZArith List Bool Floats Reals Lra.
From Verif Require Import Num FloatUp FloatErr RSums Taylor TaylorSum TaylorSub Enc1 Enc2 Enc2hs Enc2m Enc1m SpecReal SatInv SatNode Bound1 Tree1 Bound2 Tree2 Bound2hs Bound2m.
Import ListNotations.
Open Scope R_scope.
Opaque tmul tlin tadd tsub tinv chain gsum varu varv look inner tln.

(* the values *)
Definition h1r (x y : R) : R := 639675036 / 1000000 * Py Tb x y.
Definition s1r (x y : R) : R := 461526 / 1000000 * ((y + 1222 / 1000) * Py Tb x y - P Tb x y).
Definition zr (s : R) : R := 200 / 337 * s + -1676 / 1685.
Definition U1r (s : R) : R := P (map rrow tU1) 1 (zr s).
Definition L1r (s : R) : R := P (map rrow tL1) 1 (zr s).
Definition hlr (s : R) : R := P (map rrow tab_h1) (10 / 38 * s + -109 / 100) (10 / 38 * s + 366 / 10000000).
Definition T100 (s : R) : R := P (map rrow tps1) 100 (1 / 1 * s + 2 / 1).
Definition y100 (s : R) : R := 1386 / 1 * / (1 / 1 * T100 s + -218 / 10000) + -1222 / 1000.
Definition x100 : R := 17363 / 16530 * 1.
(* dh - t ds in x at constant y, over -0.461526, for the slope d of a polynomial in z *)
Definition slr (a b t d : R) : R := -1 / 1 * (a * (200 / 337 * d)) + -1 / 1 * (b * (1386 / 1 * 1 + -1 / 1 * (t * (200 / 337 * d)))) + -3225 / 100 * 1.

Section Gen.
Variables (u v : R).
Hypothesis Hu : Rabs u <= 1.
Hypothesis Hv : Rabs v <= 1.
Notation ok := (ok u v).
Variable k : nat.
Ltac vr := vm_compute; reflexivity.
Lemma z1_ok S s : ok S s -> ok (z1m k S) (zr s).
Proof. intros O. apply (sh1_ok u v Hu Hv k _ 200 337 _ _ _ (-1676) 1685); [exact O|vr|vr]. Qed.
Lemma pol_ok t S s : tok t = true -> ok S s -> ok (pol k (tfl t) S) (P (map rrow t) 1 (zr s)).
Proof. intros T O. exact (poly1 u v Hu Hv k t c10 _ _ T eq_refl (z1_ok S s O)). Qed.
Lemma U_ok S s : ok S s -> ok (pol k fU1 S) (U1r s).
Proof. intros O. change fU1 with (tfl tU1). apply pol_ok; [vr|exact O]. Qed.
Lemma L_ok S s : ok S s -> ok (pol k fL1 S) (L1r s).
Proof. intros O. change fL1 with (tfl tL1). apply pol_ok; [vr|exact O]. Qed.
Lemma U'_ok S s : ok S s -> ok (pol k fU1' S) (Py (map rrow tU1) 1 (zr s)).
Proof. intros O. rewrite <- dyD_ok. change fU1' with (tfl (dyD tU1)). apply pol_ok; [vr|exact O]. Qed.
Lemma L'_ok S s : ok S s -> ok (pol k fL1' S) (Py (map rrow tL1) 1 (zr s)).
Proof. intros O. rewrite <- dyD_ok. change fL1' with (tfl (dyD tL1)). apply pol_ok; [vr|exact O]. Qed.
Lemma gu_ok S s : ok S s -> ok (gap_u k S) (1 / 1 * U1r s + -1700 / 1 * hlr s).
Proof.
  intros O. unfold gap_u. apply (ok_lin2 u v Hu Hv); [exact (U_ok S s O)| |apply (ratok_ok 1 1); vr|apply (ratok_ok (-1700) 1); vr].
  change fh1 with (tfl tab_h1). apply (poly2 u v Hu Hv k tab_h1 ci1 cj1); [vr|vr|vr| |].
  - apply (sh1_ok u v Hu Hv k _ 10 38 _ _ _ (-109) 100); [exact O|vr|vr].
  - apply (sh1_ok u v Hu Hv k _ 10 38 _ _ _ 366 10000000); [exact O|vr|vr].
Qed.
Lemma topY_ok S s : ok S s -> ok (topY k S) (y100 s).
Proof.
  intros O. unfold topY, y100. cbv zeta. apply (sh1_ok u v Hu Hv k _ 1386 1 _ _ _ (-1222) 1000); [|vr|vr]. apply (ok_inv u v Hu Hv).
  apply (sh1_ok u v Hu Hv k _ 1 1 _ _ _ (-218) 10000); [|vr|vr]. unfold T100. change fps1 with (tfl tps1).
  apply (poly2 u v Hu Hv k tps1 cp_ph ce_ps); [vr|vr|vr|exact (c100 u v)|]. apply (sh1_ok u v Hu Hv k _ 1 1 _ _ _ 2 1); [exact O|vr|vr].
Qed.
Lemma x100_ok : ok (x100e k) x100.
Proof. apply (ok_lin1 u v Hu Hv); [exact (ok_tone u v)|apply (ratok_ok 17363 16530); vr]. Qed.
Section XY.
Variables (X Y : tm) (x y : R).
Hypothesis OX : ok X x.
Hypothesis OY : ok Y y.
Hypothesis Yp : 0 < y.
Notation px := (px1 k X). Notation py := (py1 k Y).
Lemma pxg : pwok u v x px.
Proof. unfold px1. apply (chain_nn u v Hu Hv k x cx1); [vr|]. apply pwok_base. exact OX. Qed.
Lemma pyg : pwok u v y py.
Proof.
  unfold py1. apply (chain_ok u v Hu Hv k y cy1); [lra|]. apply pwok_inv; [|apply pwok_base; exact OY]. exact (ok_inv u v Hu Hv k _ _ OY).
Qed.
Lemma sumg t : tok t = true -> ok (psum k px py (tfl t)) (P (map rrow t) x y).
Proof. intros H. exact (psum_ok u v Hu Hv k x y _ _ t H pxg pyg). Qed.
Lemma Sg_0 : ok (psum k px py t1_0) (P Tb x y).
Proof. change t1_0 with (tfl tab1). apply sumg. vr. Qed.
Lemma Sg_x : ok (psum k px py t1_x) (Px Tb x y).
Proof. rewrite <- dxD_ok. change t1_x with (tfl (dxD tab1)). apply sumg. vr. Qed.
Lemma Sg_y : ok (psum k px py t1_y) (Py Tb x y).
Proof. rewrite <- dyD_ok. change t1_y with (tfl (dyD tab1)). apply sumg. vr. Qed.
Lemma Sg_xy : ok (psum k px py t1_xy) (Pxy Tb x y).
Proof. rewrite <- dxy_ok. change t1_xy with (tfl (dyD (dxD tab1))). apply sumg. vr. Qed.
Lemma taug : ok (tau1 k Y) (y + 1222 / 1000).
Proof. replace (y + 1222 / 1000) with (1 / 1 * y + 1222 / 1000) by lra. apply (lin_one u v Hu Hv); [exact OY|vr|vr]. Qed.
Lemma h1E_ok : ok (h1E k px py) (h1r x y).
Proof. apply (ok_lin1 u v Hu Hv); [exact Sg_y|apply (ratok_ok 639675036 1000000); vr]. Qed.
Lemma s1E_ok : ok (s1E k px py Y) (s1r x y).
Proof.
  apply (ok_lin1 u v Hu Hv); [|apply (ratok_ok 461526 1000000); vr]. unfold ent1. apply (ok_sub u v Hu Hv); [|exact Sg_0].
  apply (ok_mul u v Hu Hv); [exact taug|exact Sg_y].
Qed.
Lemma slp_ok D d : ok D d -> ok (slp k (psum k px py t1_x) (psum k px py t1_xy) (tau1 k Y) D) (slr (Px Tb x y) (Pxy Tb x y) (y + 1222 / 1000) d).
Proof.
  intros O. unfold slp, slr. cbv zeta. assert (O1 : ok (tlin k [(c337, D)]) (200 / 337 * d)) by (apply (ok_lin1 u v Hu Hv); [exact O|apply (ratok_ok 200 337); vr]).
  apply (ok_lin3 u v Hu Hv); [| |exact (ok_tone u v)|apply (ratok_ok (-1) 1); vr|apply (ratok_ok (-1) 1); vr|apply (ratok_ok (-3225) 100); vr].
  - apply (ok_mul u v Hu Hv); [exact Sg_x|exact O1].
  - apply (ok_mul u v Hu Hv); [exact Sg_xy|].
    apply (ok_lin2 u v Hu Hv); [exact (ok_tone u v)|apply (ok_mul u v Hu Hv); [exact taug|exact O1]|apply (ratok_ok 1386 1); vr|apply (ratok_ok (-1) 1); vr].
Qed.
End XY.
Lemma topH_ok Y y : ok Y y -> 0 < y -> ok (topH k Y) (h1r x100 y).
Proof. intros O P. exact (h1E_ok _ _ _ _ x100_ok O P). Qed.
End Gen.

(* ---- the lines ---- *)
Section Ln.
Variables (a b : float) (x : R).
Hypothesis B : between a b = true.
Hypothesis Hx : val a <= x <= val b.
Let L := proj2 (proj2 (between_ok _ _ B)).
Let u := upos a b x.
Let Hu : Rabs u <= 1. Proof. exact (upos_le _ _ _ L Hx). Qed.
Let O : ok u 0 (varu a b) x. Proof. exact (ok_varu a b _ 0 x L Hx eq_refl). Qed.
Variable k : nat.
Lemma l_u_ok : l_u k a b = true -> 0 < 1 / 1 * U1r x + -1700 / 1 * hlr x.
Proof. intros H. exact (lpos_ok u 0 Hu lv _ _ (gu_ok u 0 Hu lv k _ _ O) H). Qed.
Lemma l_l_ok : l_l k a b = true -> 0 < y100 x /\ L1r x < h1r x100 (y100 x).
Proof.
  intros H. unfold l_l in H. cbv zeta in H. pose proof (topY_ok u 0 Hu lv k _ _ O) as OY. destruct (lpos (topY k (varu a b))) eqn:E; [|discriminate].
  pose proof (lpos_ok u 0 Hu lv _ _ OY E) as Yp. split; [exact Yp|].
  pose proof (lpos_ok u 0 Hu lv _ _ (ok_sub u 0 Hu lv _ _ _ _ (topH_ok u 0 Hu lv k _ _ OY Yp) (L_ok u 0 Hu lv k _ _ O)) H). lra.
Qed.
Lemma v532 : val 0x1.4p-3%float = 5 / 32. Proof. flv. lra. Qed.
Lemma l_t_ok : l_t k a b = true -> h1r x100 x < L1r (s1r x100 x) + 5 / 32.
Proof.
  intros H. unfold l_t in H. destruct (bpos a b) eqn:E; [|discriminate]. cbv zeta in H. destruct (bpos_ok _ _ E) as (_ & _ & _ & P). assert (Yp : 0 < x) by lra.
  pose proof (x100_ok u 0 Hu lv k) as OX.
  pose proof (lpos_ok u 0 Hu lv _ _ (ok_add u 0 Hu lv _ _ _ _ (ok_sub u 0 Hu lv _ _ _ _ (L_ok u 0 Hu lv k _ _ (s1E_ok u 0 Hu lv k _ _ _ _ OX O Yp)) (h1E_ok u 0 Hu lv k _ _ _ _ OX O Yp)) (ok_cst u 0 _)) H) as G.
  rewrite v532 in G. lra.
Qed.
Lemma l_r_ok : l_r k a b = true -> 0 < y100 (s1r x100 x) /\ h1r x100 (y100 (s1r x100 x)) < h1r x100 x.
Proof.
  intros H. unfold l_r in H. destruct (bpos a b) eqn:E; [|discriminate]. cbv zeta in H. destruct (bpos_ok _ _ E) as (_ & _ & _ & P). assert (Yp : 0 < x) by lra.
  pose proof (x100_ok u 0 Hu lv k) as OX. pose proof (topY_ok u 0 Hu lv k _ _ (s1E_ok u 0 Hu lv k _ _ _ _ OX O Yp)) as OY.
  destruct (lpos (topY k _)) eqn:F; [|discriminate]. pose proof (lpos_ok u 0 Hu lv _ _ OY F) as Y'. split; [exact Y'|].
  pose proof (lpos_ok u 0 Hu lv _ _ (ok_sub u 0 Hu lv _ _ _ _ (h1E_ok u 0 Hu lv k _ _ _ _ OX O Yp) (topH_ok u 0 Hu lv k _ _ OY Y')) H). lra.
Qed.
Definition y273r : R := 138600 / 27315 * 1 + -1222 / 1000.
Lemma l_0_ok : l_0 k a b = true -> val fsm < s1r x y273r.
Proof.
  intros H. unfold l_0 in H. cbv zeta in H.
  assert (OY : ok u 0 (y273e k) y273r) by (apply (lin_one u 0 Hu lv); [exact (ok_tone u 0)|vm_compute; reflexivity|vm_compute; reflexivity]).
  exact (gtc_ok u 0 Hu lv _ _ (s1E_ok u 0 Hu lv k _ _ _ _ O OY ltac:(unfold y273r; lra)) _ H).
Qed.
End Ln.

(* ---- the saturation line ---- *)
Definition yS (y : R) : R := 1386 / 1 * / Ts_of y + -1222 / 1000.
Definition xS (q : R) : R := -100 / 1653 * xq q + 71 / 10.
Lemma lfS_ok k c cs y0 y1 y : lfS k c cs y0 y1 = true -> val y0 <= y <= val y1 -> 273.15 <= Ts_of y <= 647.096 ->
  U1r (s1r (xS (bs y)) (yS y)) < h1r (xS (bs y)) (yS y) + / 256.
Proof.
  intros H Hy HT. unfold lfS in H. destruct (bpos y0 y1) eqn:B; [|discriminate]. cbv zeta in H.
  destruct (bpos_ok _ _ B) as (_ & _ & L & P). pose proof (upos_le _ _ _ L Hy) as Hu. pose proof lv as Hv.
  pose proof (ok_varu y0 y1 _ 0 y L Hy eq_refl) as OY. set (u := upos y0 y1 y) in *.
  pose proof (T2_ok u 0 Hu Hv k _ _ OY) as OT. set (T := T2 k (varu y0 y1)) in *.
  pose proof (lin_one u 0 Hu Hv k 1%float 1 1 _ _ (-0.1)%float (-1) 10 OT ltac:(vm_compute; reflexivity) ltac:(vm_compute; reflexivity)) as OTs.
  fold (Ts_of y) in OTs. set (Ts := tlin k [(1%float, T); ((-0.1)%float, one)]) in *.
  assert (OX : ok u 0 (tlin k [(1%float, Ts); ((-0.23855557567849)%float, tinv k (tlin k [(1%float, Ts); ((-650.17534844798)%float, one)]))]) (th (Ts_of y))).
  { pose proof (lin_one u 0 Hu Hv k 1%float 1 1 _ _ (-650.17534844798)%float (-65017534844798) 100000000000 OTs ltac:(vm_compute; reflexivity) ltac:(vm_compute; reflexivity)) as O1.
    pose proof (ok_lin2 u 0 Hu Hv k _ _ _ _ _ _ _ _ OTs (ok_inv u 0 Hu Hv k _ _ O1) (ratok_ok 1 1 1%float ltac:(vm_compute; reflexivity)) (ratok_ok (-23855557567849) 100000000000000 (-0.23855557567849)%float ltac:(vm_compute; reflexivity))) as O2.
    match type of O2 with ok _ _ _ ?w => replace (th (Ts_of y)) with w end; [exact O2|]. unfold th. 
    replace (1 / 1 * Ts_of y + -65017534844798 / 100000000000) with (Ts_of y - 650.17534844798) by lra. unfold Rdiv at 3. 
    replace (-23855557567849 / 100000000000000) with (-0.23855557567849) by lra. lra. }
  pose proof (hor_ok u 0 Hu Hv k _ _ cs (ok_add u 0 Hu Hv _ _ _ _ OY (ok_cst u 0 (- c)%float))) as OB. set (b := horr _ cs) in *.
  set (Bt := hor k _ cs) in *. destruct (satok k _ Bt) eqn:Sk; [|discriminate].
  pose proof (th_range _ HT) as Hz. pose proof (satok_ok u 0 Hu Hv k _ _ OX _ _ OB Hz Sk) as AB. fold (bs y) in AB.
  assert (OQ : ok u 0 (tadd Bt (TM [] rb)) (bs y)).
  { replace (bs y) with (b + (bs y - b)) by ring. apply (ok_add u 0 Hu Hv); [exact OB|]. apply ok_err; [exact (proj2 (proj2 rb_val))|exact AB]. }
  set (Q := tadd Bt (TM [] rb)) in *. clearbody Q. set (q := bs y) in *. clearbody q.
  assert (OQ2 := ok_mul _ _ Hu Hv k _ _ _ _ OQ OQ). assert (OXX := ok_mul _ _ Hu Hv k _ _ _ _ OQ2 OQ2). fold (xq q) in OXX.
  pose proof (sh1_ok u 0 Hu Hv k 1386%float 1386 1 _ _ (-1.222)%float (-1222) 1000 (ok_inv u 0 Hu Hv k _ _ OTs) ltac:(vm_compute; reflexivity) ltac:(vm_compute; reflexivity)) as OY1. fold (yS y) in OY1.
  pose proof (sh1_ok u 0 Hu Hv k (-0x1.ef9573118013dp-5)%float (-100) 1653 _ _ 7.1%float 71 10 OXX ltac:(vm_compute; reflexivity) ltac:(vm_compute; reflexivity)) as OX1. fold (xS q) in OX1.
  assert (Yp : 0 < yS y).
  { unfold yS. assert (/ 647.096 <= / Ts_of y) by (apply Rinv_le_contravar; lra). lra. }
  pose proof (s1E_ok u 0 Hu Hv k _ _ _ _ OX1 OY1 Yp) as OS. pose proof (h1E_ok u 0 Hu Hv k _ _ _ _ OX1 OY1 Yp) as OH.
  pose proof (lpos_ok u 0 Hu Hv _ _ (ok_add u 0 Hu Hv _ _ _ _ (ok_sub u 0 Hu Hv _ _ _ _ OH (U_ok u 0 Hu Hv k _ _ OS)) (ok_cst u 0 _)) H) as G.
  replace (val 0x1p-8%float) with (/ 256) in G by (flv; lra). lra.
Qed.

(* ---- the interior ---- *)
Definition F1 (x y : R) : Prop :=
  s1r x y < val f336 /\ -1 < h1r x y /\
  0 < slr (Px Tb x y) (Pxy Tb x y) (y + 1222 / 1000) (Py (map rrow tU1) 1 (zr (s1r x y))) /\
  0 < slr (Px Tb x y) (Pxy Tb x y) (y + 1222 / 1000) (Py (map rrow tL1) 1 (zr (s1r x y))).
Lemma lf1m_ok k x0 x1 y0 y1 x y : lf1m k x0 x1 y0 y1 = true -> val x0 <= x <= val x1 -> val y0 <= y <= val y1 -> F1 x y.
Proof.
  intros H Hx Hy. unfold lf1m in H. destruct (boxok x0 x1 y0 y1) eqn:B; [|discriminate]. cbv zeta in H.
  pose proof (Hu _ _ _ _ _ B Hx) as Hu. pose proof (Hv _ _ _ _ _ B Hy) as Hv. pose proof (okX _ _ _ _ _ y B Hx) as OX. pose proof (okY _ _ _ _ x _ B Hy) as OY. pose proof (y_pos _ _ _ _ _ B Hy) as Yp.
  apply andb_true_iff in H as [H H4]. apply andb_true_iff in H as [H H3]. apply andb_true_iff in H as [H1 H2].
  pose proof (s1E_ok _ _ Hu Hv k _ _ _ _ OX OY Yp) as OS. unfold F1.
  split; [exact (ltc_ok _ _ Hu Hv _ _ OS _ H1)|]. split.
  - pose proof (gtc_ok _ _ Hu Hv _ _ (h1E_ok _ _ Hu Hv k _ _ _ _ OX OY Yp) _ H2) as G. replace (val (-1)%float) with (-1) in G by (flv; lra). exact G.
  - split; [refine (lpos_ok _ _ Hu Hv _ _ _ H3)|refine (lpos_ok _ _ Hu Hv _ _ _ H4)]; apply (slp_ok _ _ Hu Hv); try assumption; [apply (U'_ok _ _ Hu Hv)|apply (L'_ok _ _ Hu Hv)]; exact OS.
Qed.
