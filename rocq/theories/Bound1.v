(* The enclosures of Enc1 are correct: signs of the partial derivatives and errors of
   the backward equations over all states of region 1, in exact arithmetic. *)
From Coq Require Import ZArith Reals List Bool Floats Lra Lia.
From Interval Require Import Tactic.
From Verif Require Import Num RealInst FloatInst FloatErr FloatUp Steps RSums Taylor TaylorSum Reg1 Reg1Back SpecReal SatInv SatNode Enc1.
Import ListNotations.
Open Scope R_scope.

(* the states of region 1 in the variables of the boxes; the saturation line may be
   undercut by 1 mPa (1e-9 MPa), since the code uses a decimal for psat(623.15 K) *)
Definition xT (y : R) : R := 1386 / (y + 1222 / 1000).
Definition xp (x : R) : R := (71 / 10 - x) * (1653 / 100).
Definition reg1xy (x y : R) : Prop := 273.15 <= xT y <= 623.15 /\ if97_psat (xT y) <= xp x + 1 / 1000000000.

Ltac flv := repeat match goal with |- context [val ?f] => let q := eval vm_compute in (flq f) in
  match q with Some (?a, ?b) => rewrite (proj2 (flq_ok f a b eq_refl)) end end.

(* ---- the points of the saturation line ---- *)
Definition node_ok (n : float * float) : Prop :=
  fin (fst n) /\ fin (snd n) /\ 273.15 <= xT (val (snd n)) <= 647 /\ xp (val (fst n)) + 1 / 1000000000 <= if97_psat (xT (val (snd n))).
(* a node (x, y), a temperature t/10^4 not above it and b/10^9 = p^(1/4) *)
Definition nodechk (t b : Z) (n : float * float) : bool :=
  match flq (fst n), flq (snd n) with
  | Some (xn, xd), Some (yn, yd) =>
      zge t b && (t * (1000 * yn + 1222 * yd) <=? 13860000000 * yd)%Z && (1386000 * yd <=? 646 * (1000 * yn + 1222 * yd))%Z && (0 <? yn)%Z
      && ((71 * xd - 10 * xn) * 1653 * 1000000000000000000000000000000000000 + xd * 1000000000000000000000000000000 <=? b * b * b * b * 1000 * xd)%Z
  | _, _ => false
  end.
Lemma flq_fin f q : flq f = Some q -> fin f.
Proof. unfold flq. destruct (Prim2SF f) eqn:E; try discriminate. intros _. eapply fin_SF. exact E. Qed.
Lemma nodechk_ok t b n : nodechk t b n = true -> node_ok n.
Proof.
  unfold nodechk, node_ok. destruct (flq (fst n)) as [[xn xd]|] eqn:E1; [|discriminate]. destruct (flq (snd n)) as [[yn yd]|] eqn:E2; [|discriminate].
  destruct (flq_ok _ _ _ E1) as [Px ->]. destruct (flq_ok _ _ _ E2) as [Py ->]. rewrite !andb_true_iff, !Z.leb_le, Z.ltb_lt. intros ((((H1 & H2) & H4) & H5) & H6).
  destruct (zge_ok _ _ H1) as [R S]. split; [eapply flq_fin; exact E1|]. split; [eapply flq_fin; exact E2|].
  apply IZR_lt in Px, Py, H5. apply IZR_le in H2, H4, H6. repeat rewrite ?mult_IZR, ?plus_IZR, ?minus_IZR in H2. repeat rewrite ?mult_IZR, ?plus_IZR, ?minus_IZR in H4. repeat rewrite ?mult_IZR, ?plus_IZR, ?minus_IZR in H6.
  set (X := IZR xn) in *. set (Xd := IZR xd) in *. set (Y := IZR yn) in *. set (Yd := IZR yd) in *.
  assert (PY : 0 < Y / Yd) by (apply Rdiv_lt_0_compat; assumption).
  assert (B1 : IZR t / 10000 <= xT (Y / Yd)).
  { unfold xT. apply Rmult_le_reg_r with (Y / Yd + 1222 / 1000); [lra|]. replace (1386 / (Y / Yd + 1222 / 1000) * (Y / Yd + 1222 / 1000)) with 1386 by (field; lra).
    apply Rmult_le_reg_r with Yd; [exact Py|]. replace (IZR t / 10000 * (Y / Yd + 1222 / 1000) * Yd) with (IZR t * (1000 * Y + 1222 * Yd) / 10000000) by (field; lra). idtac. lra. }
  assert (B2 : xT (Y / Yd) <= 646).
  { unfold xT. apply Rmult_le_reg_r with (Y / Yd + 1222 / 1000); [lra|]. replace (1386 / (Y / Yd + 1222 / 1000) * (Y / Yd + 1222 / 1000)) with 1386 by (field; lra).
    apply Rmult_le_reg_r with Yd; [exact Py|]. replace (646 * (Y / Yd + 1222 / 1000) * Yd) with (646 * (Y + 1222 / 1000 * Yd)) by (field; lra). lra. }
  split; [lra|]. apply Rle_trans with (if97_psat (IZR t / 10000)).
  - eapply Rle_trans; [|exact S]. unfold xp. apply Rmult_le_reg_r with Xd; [exact Px|].
    replace (((71 / 10 - X / Xd) * (1653 / 100) + 1 / 1000000000) * Xd) with ((71 / 10 * Xd - X) * (1653 / 100) + Xd / 1000000000) by (field; lra).
    replace ((IZR b / 1000000000) ^ 4) with (IZR b * IZR b * IZR b * IZR b / 1000000000000000000000000000000000000) by field. lra.
  - destruct (Req_dec (IZR t / 10000) (xT (Y / Yd))) as [E|E]; [rewrite <- E; lra|]. left. apply psat_mono; lra.
Qed.
Definition bz1 : list (Z * Z) := [(4750003, 1127426372); (5100020, 1333819475); (5520045, 1584674925); (5600020, 1632709130); (5680002, 1680827472); (5740017, 1716996823); (5780049, 1741147951); (5820047, 1765309058); (5840029, 1777391760); (5860073, 1789508106); (5880027, 1801588147); (5900040, 1813715390); (5920036, 1825842455); (5940013, 1837956058); (5960046, 1850123595); (5980058, 1862280295); (6000046, 1874442889); (6010050, 1880531270); (6035047, 1895762642); (6060011, 1910987980); (6070054, 1917129654); (6080049, 1923230590); (6102516, 1936972778); (6115005, 1944623699); (6135078, 1956931311); (6145039, 1963044875); (6157536, 1970726861); (6167570, 1976893289); (6172516, 1979938739); (6182515, 1986092465); (6192547, 1992277238); (6197532, 1995348147); (6201256, 1997646013); (6206256, 2000731673); (6211263, 2003818796); (6213813, 2005400025); (6218152, 2008076448); (6223179, 2011184184); (6225653, 2012717198); (6228128, 2014246717)]%Z.
Lemma nodes1_chk : forallb (fun q => nodechk (fst (fst q)) (snd (fst q)) (snd q)) (combine bz1 nodes1) = true /\ length bz1 = length nodes1.
Proof. split; vm_compute; reflexivity. Qed.
Lemma nodes1_ok : Forall node_ok nodes1.
Proof.
  destruct nodes1_chk as [H E]. revert H E. generalize bz1. induction nodes1 as [|n l IH]; intros q H E; [constructor|].
  destruct q as [|z q]; [discriminate E|]. cbn [combine forallb fst snd] in H. apply andb_true_iff in H as [H1 H2].
  constructor; [eapply nodechk_ok; exact H1|]. apply (IH q H2). now injection E.
Qed.

Lemma leb_le a b : fin a -> fin b -> PrimFloat.leb a b = true -> val a <= val b.
Proof. apply leb_inv. Qed.
Lemma bpos_ok a b : bpos a b = true -> fin a /\ fin b /\ val a < val b /\ 0 < val a.
Proof.
  intros H. apply andb_true_iff in H as [H1 H2]. destruct (between_ok _ _ H2) as (Fa & Fb & L).
  split; [exact Fa|]. split; [exact Fb|]. split; [exact L|]. rewrite <- zero_val. apply ltb_inv; [exact zero_fin|exact Fa|exact H1].
Qed.
Lemma out1_ok x0 x1 y0 y1 x y : out1 x0 x1 y0 y1 = true -> val x0 <= x <= val x1 -> val y0 <= y <= val y1 -> ~ reg1xy x y.
Proof.
  intros H Hx Hy [HT Hp]. apply andb_true_iff in H as [Hb H]. apply andb_true_iff in Hb as [B1 B2].
  destruct (bpos_ok _ _ B1) as (F1 & F2 & L1 & P1). destruct (bpos_ok _ _ B2) as (F3 & F4 & L2 & P2).
  apply existsb_exists in H as (n & Hn & H). apply andb_true_iff in H as [H1 H2].
  pose proof nodes1_ok as N. rewrite Forall_forall in N. destruct (N _ Hn) as (G1 & G2 & G3 & G4).
  apply ltb_inv in H1; [|assumption..]. apply leb_inv in H2; [|assumption..].
  assert (A : xT (val (snd n)) <= xT y).
  { unfold xT. apply Rmult_le_compat_l; [lra|]. apply Rinv_le_contravar; lra. }
  assert (B : if97_psat (xT (val (snd n))) <= if97_psat (xT y)).
  { destruct (Req_dec (xT (val (snd n))) (xT y)) as [E|E]; [rewrite E; lra|]. left. apply psat_mono; lra. }
  unfold xp in *. lra.
Qed.

(* ---- what the enclosures enclose ---- *)
Opaque tmul tlin tadd tsub tinv chain gsum varu varv look.
Section Box.
Variables (x0 x1 y0 y1 : float) (x y : R).
Hypothesis B : boxok x0 x1 y0 y1 = true.
Hypothesis Hx : val x0 <= x <= val x1.
Hypothesis Hy : val y0 <= y <= val y1.
Let u := upos x0 x1 x. Let v := upos y0 y1 y.
Notation ok := (ok u v).
Lemma Hu : Rabs u <= 1.
Proof. apply andb_true_iff in B as [B1 B2]. destruct (bpos_ok _ _ B1) as (_ & _ & L & _). apply upos_le; assumption. Qed.
Lemma Hv : Rabs v <= 1.
Proof. apply andb_true_iff in B as [B1 B2]. destruct (bpos_ok _ _ B2) as (_ & _ & L & _). apply upos_le; assumption. Qed.
Lemma x_pos : 0 < x.
Proof. apply andb_true_iff in B as [B1 B2]. destruct (bpos_ok _ _ B1) as (_ & _ & _ & L). lra. Qed.
Lemma y_pos : 0 < y.
Proof. apply andb_true_iff in B as [B1 B2]. destruct (bpos_ok _ _ B2) as (_ & _ & _ & L). lra. Qed.
Lemma okX : ok (varu x0 x1) x.
Proof. apply andb_true_iff in B as [B1 B2]. destruct (bpos_ok _ _ B1) as (_ & _ & L & _). apply ok_varu; [exact L|exact Hx|reflexivity]. Qed.
Lemma okY : ok (varv y0 y1) y.
Proof. apply andb_true_iff in B as [B1 B2]. destruct (bpos_ok _ _ B2) as (_ & _ & L & _). apply ok_varv; [exact L|exact Hy|reflexivity]. Qed.
Lemma ok_one : ok one 1.
Proof. pose proof (ok_cst u v 1%float) as O. rewrite (proj2 one_val) in O. exact O. Qed.
Variable k : nat.
Lemma px_ok : pwok u v x (px1 k (varu x0 x1)).
Proof. unfold px1. apply (chain_ok u v Hu Hv k x cx1); [pose proof x_pos; lra|]. apply pwok_base. exact okX. Qed.
Lemma py_ok : pwok u v y (py1 k (varv y0 y1)).
Proof.
  unfold py1. apply (chain_ok u v Hu Hv k y cy1); [pose proof y_pos; lra|]. apply pwok_inv; [|apply pwok_base; exact okY].
  exact (ok_inv u v Hu Hv k _ _ okY).
Qed.
Lemma psum1_ok t : tok t = true -> ok (psum k (px1 k (varu x0 x1)) (py1 k (varv y0 y1)) (tfl t)) (P (map rrow t) x y).
Proof. intros H. exact (psum_ok u v Hu Hv k x y _ _ t H px_ok py_ok). Qed.
Notation S t := (psum k (px1 k (varu x0 x1)) (py1 k (varv y0 y1)) t).
Notation Tb := (map rrow tab1).
Lemma S_0 : ok (S t1_0) (P Tb x y).
Proof. change t1_0 with (tfl tab1). apply psum1_ok. vm_compute. reflexivity. Qed.
Lemma S_x : ok (S t1_x) (Px Tb x y).
Proof. rewrite <- dxD_ok. change t1_x with (tfl (dxD tab1)). apply psum1_ok. vm_compute. reflexivity. Qed.
Lemma S_y : ok (S t1_y) (Py Tb x y).
Proof. rewrite <- dyD_ok. change t1_y with (tfl (dyD tab1)). apply psum1_ok. vm_compute. reflexivity. Qed.
Lemma S_xx : ok (S t1_xx) (Pxx Tb x y).
Proof. rewrite <- dxx_ok. change t1_xx with (tfl (dxD (dxD tab1))). apply psum1_ok. vm_compute. reflexivity. Qed.
Lemma S_xy : ok (S t1_xy) (Pxy Tb x y).
Proof. rewrite <- dxy_ok. change t1_xy with (tfl (dyD (dxD tab1))). apply psum1_ok. vm_compute. reflexivity. Qed.
Lemma S_yy : ok (S t1_yy) (Pyy Tb x y).
Proof. rewrite <- dyy_ok. change t1_yy with (tfl (dyD (dyD tab1))). apply psum1_ok. vm_compute. reflexivity. Qed.

Lemma lterm_one f c (t : tm) z : ok t z -> Rabs (c - val f) <= / 1125899906842624 * Rabs (val f) -> lterm u v (f, t) (c, z).
Proof. split; assumption. Qed.
Lemma ok_two f c t z g d s w : ok t z -> ok s w -> Rabs (c - val f) <= / 1125899906842624 * Rabs (val f) ->
  Rabs (d - val g) <= / 1125899906842624 * Rabs (val g) -> ok (tlin k [(f, t); (g, s)]) (c * z + d * w).
Proof.
  intros H1 H2 H3 H4. pose proof (ok_lin u v Hu Hv k [(f, t); (g, s)] [(c, z); (d, w)]) as X.
  unfold lval in X. cbn [fold_right fst snd] in X. rewrite Rplus_0_r in X. apply X.
  constructor; [apply lterm_one; assumption|]. constructor; [apply lterm_one; assumption|constructor].
Qed.
Lemma tau_ok : ok (tau1 k (varv y0 y1)) (y + 1222 / 1000).
Proof.
  replace (y + 1222 / 1000) with (1 / 1 * y + 1222 / 1000 * 1) by field.
  apply ok_two; [exact okY|exact ok_one|apply (ratok_ok 1 1)|apply (ratok_ok 1222 1000)]; vm_compute; reflexivity.
Qed.
Lemma tp_ok : ok (tp1 k (varu x0 x1)) (xp x).
Proof.
  replace (xp x) with (117363 / 1000 * 1 + -1653 / 100 * x) by (unfold xp; field).
  apply ok_two; [exact ok_one|exact okX|apply (ratok_ok 117363 1000)|apply (ratok_ok (-1653) 100)]; vm_compute; reflexivity.
Qed.
Lemma tT_ok : ok (tT1 k (varv y0 y1)) (xT y).
Proof.
  unfold tT1, xT, Rdiv at 1. apply (ok_mul u v Hu Hv).
  - pose proof (ok_cst u v 1386%float) as O. replace (val 1386%float) with 1386 in O by (flv; lra). exact O.
  - exact (ok_inv u v Hu Hv k _ _ tau_ok).
Qed.
Lemma ent_ok : ok (ent1 k (px1 k (varu x0 x1)) (py1 k (varv y0 y1)) (varv y0 y1)) ((y + 1222 / 1000) * Py Tb x y - P Tb x y).
Proof. apply (ok_sub u v Hu Hv); [apply (ok_mul u v Hu Hv); [exact tau_ok|exact S_y]|exact S_0]. Qed.
Lemma bp_ok l X z : chn l = true -> ok X z -> pwok u v z (bp k l X).
Proof. intros H1 H2. unfold bp. apply (chain_nn u v Hu Hv k z l H1). apply pwok_base. exact H2. Qed.

(* the reduced arguments of the backward equations *)
Definition eta25 : R := 255870014400 / 1000000000000 * Py Tb x y + 1.
Definition sig2 : R := 461526 / 1000000 * ((y + 1222 / 1000) * Py Tb x y - P Tb x y) + 2.
Definition eta34 : R := 639675036 / 3400000000 * Py Tb x y + 5 / 100.
Definition sig76 : R := 461526 / 7600000 * ((y + 1222 / 1000) * Py Tb x y - P Tb x y) + 5 / 100.
Lemma gap_ph_ok : ok (gap_ph k x0 x1 y0 y1) (P (map rrow tph1) (xp x) eta25 - xT y).
Proof.
  unfold gap_ph. cbv zeta. apply (ok_sub u v Hu Hv); [|exact tT_ok]. unfold psum. change fph1 with (tfl tph1). apply (psum_ok u v Hu Hv k); [vm_compute; reflexivity|apply bp_ok; [reflexivity|exact tp_ok]|].
  apply bp_ok; [reflexivity|]. unfold eta25. replace 1 with (1 / 1 * 1) by field.
  apply ok_two; [exact S_y|exact ok_one|apply (ratok_ok 255870014400 1000000000000)|apply (ratok_ok 1 1)]; vm_compute; reflexivity.
Qed.
Lemma gap_ps_ok : ok (gap_ps k x0 x1 y0 y1) (P (map rrow tps1) (xp x) sig2 - xT y).
Proof.
  unfold gap_ps. cbv zeta. apply (ok_sub u v Hu Hv); [|exact tT_ok]. unfold psum. change fps1 with (tfl tps1). apply (psum_ok u v Hu Hv k); [vm_compute; reflexivity|apply bp_ok; [reflexivity|exact tp_ok]|].
  apply bp_ok; [reflexivity|]. unfold sig2. replace 2 with (2 / 1 * 1) by field.
  apply ok_two; [exact ent_ok|exact ok_one|apply (ratok_ok 461526 1000000)|apply (ratok_ok 2 1)]; vm_compute; reflexivity.
Qed.
Lemma gap_hs_ok : ok (gap_hs k x0 x1 y0 y1) (100 * P (map rrow ths1) eta34 sig76 - xp x).
Proof.
  replace (100 * P (map rrow ths1) eta34 sig76 - xp x) with (100 / 1 * P (map rrow ths1) eta34 sig76 + -1 / 1 * xp x) by field.
  unfold gap_hs. cbv zeta. apply ok_two; [|exact tp_ok|apply (ratok_ok 100 1); vm_compute; reflexivity|apply (ratok_ok (-1) 1); vm_compute; reflexivity].
  change fhs1 with (tfl ths1). unfold psum at 1. apply (psum_ok u v Hu Hv k); [vm_compute; reflexivity| |].
  - apply bp_ok; [reflexivity|]. unfold eta34. replace (5 / 100) with (5 / 100 * 1) by field.
    apply ok_two; [exact S_y|exact ok_one|apply (ratok_ok 639675036 3400000000)|apply (ratok_ok 5 100)]; vm_compute; reflexivity.
  - apply bp_ok; [reflexivity|]. unfold sig76. replace (5 / 100) with (5 / 100 * 1) by field.
    apply ok_two; [exact ent_ok|exact ok_one|apply (ratok_ok 461526 7600000)|apply (ratok_ok 5 100)]; vm_compute; reflexivity.
Qed.
Lemma det_ok : ok (let d := tsub (S t1_x) (tmul k (tau1 k (varv y0 y1)) (S t1_xy)) in
    tsub (tmul k (tmul k (tmul k (tau1 k (varv y0 y1)) (tau1 k (varv y0 y1))) (S t1_yy)) (S t1_xx)) (tmul k d d))
  (let t := y + 1222 / 1000 in let d := Px Tb x y - t * Pxy Tb x y in t * t * Pyy Tb x y * Pxx Tb x y - d * d).
Proof.
  cbv zeta. pose proof tau_ok as T.
  assert (D : ok (tsub (S t1_x) (tmul k (tau1 k (varv y0 y1)) (S t1_xy))) (Px Tb x y - (y + 1222 / 1000) * Pxy Tb x y)).
  { apply (ok_sub u v Hu Hv); [exact S_x|]. apply (ok_mul u v Hu Hv); [exact T|exact S_xy]. }
  apply (ok_sub u v Hu Hv); [|apply (ok_mul u v Hu Hv); exact D].
  apply (ok_mul u v Hu Hv); [|exact S_xx]. apply (ok_mul u v Hu Hv); [|exact S_yy]. apply (ok_mul u v Hu Hv); exact T.
Qed.
End Box.
