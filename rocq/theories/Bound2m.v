(* The enclosures of Enc2m are correct. *)
From Coq Require Import ZArith List Bool Floats Reals Lra.
From Verif Require Import Num FloatUp FloatErr RSums Taylor TaylorSum TaylorSub Enc1 Enc2 Enc2hs Enc2m SpecReal SatInv SatNode Bound1 Tree1 Bound2 Tree2 Bound2hs.
Import ListNotations.
Open Scope R_scope.
Opaque tmul tlin tadd tsub tinv chain gsum varu varv look inner tln.

(* the values *)
Definition Uabr (s : R) : R := P (map rrow tUab) 1 (50 / 83 * s + -375 / 83).
Definition Ucbr (s : R) : R := P (map rrow tUcb) 1 (100 / 41 * s + -545 / 41).
Definition Ltopr (s : R) : R := P (map rrow tLtop) 1 (25 / 12 * s + -557 / 48).
Definition gabr (s : R) : R := ln (1 / 2800 * Uabr s) - P (map rrow tab_ab) (1 / 1 * / (100 / 521 * s) + -513 / 1000) (10 / 92 * s + -524 / 1000).
Definition rcbr (s : R) : R := P (map rrow tab_cb) (10 / 59 * s + -102 / 100) (10 / 59 * s + -726 / 1000).
Definition gcbr (s : R) : R := 1 / 1 * Ucbr s + -2800 / 1 * (rcbr s * rcbr s * (rcbr s * rcbr s)).
Definition topb (s : R) : R := P (map rrow tpsb) 100 (-10000 / 7853 * s + 10 / 1).
Definition topc (s : R) : R := P (map rrow tpsc) 100 (-10000 / 29251 * s + 2 / 1).
Definition ytop (T : R) : R := 540 / 1 * / (1 / 1 * T + -19 / 1000) + -5 / 10.
Definition gtopr (T s : R) : R := 24922404 / 100000 * vH 100 (ytop T) + -1 / 1 * Ltopr s.
Definition uHr (h : R) : R := 2 / 251 * h + -5376 / 251.
Definition uSr (s : R) : R := 1000 / 107 * s + -5155 / 107.
Definition TLr (h s : R) : R := P (map rrow tTL) (uHr h) (uSr s).
Definition Taur (h s : R) : R := P (map rrow tTau) (uHr h) (uSr s).
Definition ths (h s : R) : R := 900 / 1 * P (map rrow tab_th) (1 / 3000 * h + -727 / 1000) (10 / 53 * s + -864 / 1000).
Definition sloper (h s : R) : R := 2 / 251 * (Px (map rrow tTL) (uHr h) (uSr s) * Taur h s) + 1000 / 107 * Py (map rrow tTL) (uHr h) (uSr s).
Definition sabr (h s : R) : R :=
  1 / 1 * h + -1 / 1 * ((1 / 1 * ((276349063799944 / 10000000000000 * s + -421073558227969 / 1000000000000) * s) + 257560716905876 / 100000000000) * s)
  + 349898083432139 / 100000000000 * 1.
Definition b23r (T : R) : R := 10192970039326 / 10000000000000000 * (T * T) + -11671859879975 / 10000000000000 * T + 34805185628969 / 100000000000 * 1.
Definition gspr (x h s : R) : R := 1 / 1 * b23r (TLr h s) + -1000125 / 1000000 * x.

Lemma line_ok leaf (Q : R -> Prop) : (forall a b x, between a b = true -> leaf a b = true -> val a <= x <= val b -> Q x) ->
  forall n a b x, line leaf n a b = true -> val a <= x <= val b -> Q x.
Proof.
  intros H. induction n as [|n IH]; intros a b x L Hx; cbn [line] in L; destruct (between a b) eqn:B; try discriminate;
    destruct (leaf a b) eqn:E; try discriminate; try (exact (H a b x B E Hx)).
  destruct (line leaf n a (vmid a b)) eqn:L1; [|discriminate]. destruct (Rle_lt_dec x (val (vmid a b))) as [C|C].
  - apply (IH a (vmid a b) x L1). lra.
  - apply (IH (vmid a b) b x L). lra.
Qed.

Section Enc.
Variables (u v : R).
Hypothesis Hu : Rabs u <= 1.
Hypothesis Hv : Rabs v <= 1.
Notation ok := (ok u v).
Variable k : nat.
Ltac rat := first [apply (ratok_ok 1 1)|idtac]; vm_compute; reflexivity.
Lemma sh1_ok f a b t z g c d : ok t z -> ratok a b f = true -> ratok c d g = true ->
  ok (sh1 k f g t) (IZR a / IZR (Zpos b) * z + IZR c / IZR (Zpos d)).
Proof. exact (lin_one u v Hu Hv k f a b t z g c d). Qed.
Variables (S H : tm) (s h : R).
Hypothesis OS : ok S s.
Hypothesis OH : ok H h.
Lemma poly1 t c X z : tok t = true -> chn c = true -> ok X z -> ok (psum k [] (bp k c X) (tfl t)) (P (map rrow t) 1 z).
Proof. intros T C O. refine (psum_ok u v Hu Hv k 1 z _ _ t T _ (bp_ok2 u v Hu Hv k c X z C O)). constructor. Qed.
Lemma poly2 t c d X x Y y : tok t = true -> chn c = true -> chn d = true -> ok X x -> ok Y y -> ok (psum k (bp k c X) (bp k d Y) (tfl t)) (P (map rrow t) x y).
Proof. intros T C D O1 O2. exact (psum_ok u v Hu Hv k x y _ _ t T (bp_ok2 u v Hu Hv k c X x C O1) (bp_ok2 u v Hu Hv k d Y y D O2)). Qed.
Ltac vr := vm_compute; reflexivity.
Lemma Uab_ok : ok (Uab k (zab k S)) (Uabr s).
Proof. unfold Uab, Uabr. change fUab with (tfl tUab). apply poly1; [vr|vr|]. apply (sh1_ok _ 50 83 _ _ _ (-375) 83); [exact OS|vr|vr]. Qed.
Lemma Ucb_ok : ok (Ucb k (zcb k S)) (Ucbr s).
Proof. unfold Ucb, Ucbr. change fUcb with (tfl tUcb). apply poly1; [vr|vr|]. apply (sh1_ok _ 100 41 _ _ _ (-545) 41); [exact OS|vr|vr]. Qed.
Lemma Ltop_ok : ok (Ltop k (ztop k S)) (Ltopr s).
Proof. unfold Ltop, Ltopr. change fLtop with (tfl tLtop). apply poly1; [vr|vr|]. apply (sh1_ok _ 25 12 _ _ _ (-557) 48); [exact OS|vr|vr]. Qed.
Lemma gab_ok : 0 < Uabr s -> ok (gap_ab k S) (gabr s).
Proof.
  intros U. unfold gap_ab, gabr. apply (ok_sub u v Hu Hv).
  - apply (tln_ok u v k _ _ Hu Hv); [lra|]. apply (ok_lin1 u v Hu Hv); [exact Uab_ok|apply (ratok_ok 1 2800); vr].
  - change fab with (tfl tab_ab). apply poly2; [vr|vr|vr| |].
    + apply (sh1_ok _ 1 1 _ _ _ (-513) 1000); [|vr|vr]. apply (ok_inv u v Hu Hv). apply (ok_lin1 u v Hu Hv); [exact OS|apply (ratok_ok 100 521); vr].
    + apply (sh1_ok _ 10 92 _ _ _ (-524) 1000); [exact OS|vr|vr].
Qed.
Lemma gcb_ok : ok (gap_cb k S) (gcbr s).
Proof.
  unfold gap_cb, gcbr. cbv zeta.
  assert (R : ok (psum k (bp k c37 (sh1 k 0x1.5b1e5f75270d0p-3 (-1.02)%float S)) (bp k c37 (sh1 k 0x1.5b1e5f75270d0p-3 (-0.726)%float S)) fcb) (rcbr s)).
  { change fcb with (tfl tab_cb). apply poly2; [vr|vr|vr| |].
    - apply (sh1_ok _ 10 59 _ _ _ (-102) 100); [exact OS|vr|vr].
    - apply (sh1_ok _ 10 59 _ _ _ (-726) 1000); [exact OS|vr|vr]. }
  apply (ok_lin2 u v Hu Hv); [exact Ucb_ok| |apply (ratok_ok 1 1); vr|apply (ratok_ok (-2800) 1); vr].
  apply (ok_mul u v Hu Hv); apply (ok_mul u v Hu Hv); exact R.
Qed.
Lemma c100 : ok (cst 100%float) 100.
Proof. pose proof (ok_cst u v 100%float) as O. replace (val 100%float) with 100 in O by (flv; lra). exact O. Qed.
Lemma top_b_ok : ok (top_b k S) (topb s).
Proof.
  unfold top_b, topb. change fpsb with (tfl tpsb). apply (psum_ok u v Hu Hv); [vr|apply (bpi_ok u v Hu Hv); [lra|exact c100]|].
  apply (bp_ok2 u v Hu Hv); [vr|]. apply (sh1_ok _ (-10000) 7853 _ _ _ 10 1); [exact OS|vr|vr].
Qed.
Lemma top_c_ok : ok (top_c k S) (topc s).
Proof.
  unfold top_c, topc. change fpsc with (tfl tpsc). apply (psum_ok u v Hu Hv); [vr|apply (bpi_ok u v Hu Hv); [lra|exact c100]|].
  apply (bp_ok2 u v Hu Hv); [vr|]. apply (sh1_ok _ (-10000) 29251 _ _ _ 2 1); [exact OS|vr|vr].
Qed.
Lemma gtop_ok T t : ok T t -> lpos (gap_top k S T) = true -> 0 < gtopr t s /\ 0 < ytop t.
Proof.
  intros OT L. unfold gap_top in L. cbv zeta in L.
  assert (OY : ok (sh1 k 540 (-0.5) (tinv k (sh1 k 1 (-0.019)%float T))) (ytop t)).
  { apply (sh1_ok _ 540 1 _ _ _ (-5) 10); [|vr|vr]. apply (ok_inv u v Hu Hv). apply (sh1_ok _ 1 1 _ _ _ (-19) 1000); [exact OT|vr|vr]. }
  destruct (lpos (sh1 k 540 (-0.5) (tinv k (sh1 k 1 (-0.019)%float T)))) eqn:E; [|discriminate]. pose proof (lpos_ok u v Hu Hv _ _ OY E) as Yp.
  split; [|exact Yp]. apply (lpos_ok u v Hu Hv _ _) with (2 := L). apply (ok_lin2 u v Hu Hv); [exact (hh_ok u v Hu Hv k _ _ _ _ c100 OY Yp)|exact Ltop_ok|apply (ratok_ok 24922404 100000); vr|apply (ratok_ok (-1) 1); vr].
Qed.
Lemma uH_ok : ok (uH k H) (uHr h). Proof. apply (sh1_ok _ 2 251 _ _ _ (-5376) 251); [exact OH|vr|vr]. Qed.
Lemma uS_ok : ok (uS k S) (uSr s). Proof. apply (sh1_ok _ 1000 107 _ _ _ (-5155) 107); [exact OS|vr|vr]. Qed.
Lemma TL_ok : ok (tTLe k H S) (TLr h s).
Proof. unfold tTLe. change fTL with (tfl tTL). apply poly2; [vr|vr|vr|exact uH_ok|exact uS_ok]. Qed.
Lemma Tau_ok : ok (tTaue k H S) (Taur h s).
Proof. unfold tTaue. change fTau with (tfl tTau). apply poly2; [vr|vr|vr|exact uH_ok|exact uS_ok]. Qed.
Lemma slope_ok : ok (slopeE k H S) (sloper h s).
Proof.
  unfold slopeE, sloper. cbv zeta. rewrite <- dxD_ok, <- dyD_ok. change fTLx with (tfl (dxD tTL)). change fTLy with (tfl (dyD tTL)). change fTau with (tfl tTau).
  apply (ok_lin2 u v Hu Hv); [| |apply (ratok_ok 2 251); vr|apply (ratok_ok 1000 107); vr]; [apply (ok_mul u v Hu Hv)|];
    (apply poly2; [vr|vr|vr|exact uH_ok|exact uS_ok]).
Qed.
Lemma TLx_ok : ok (psum k (bp k c8 (uH k H)) (bp k c8 (uS k S)) fTLx) (Px (map rrow tTL) (uHr h) (uSr s)).
Proof. rewrite <- dxD_ok. change fTLx with (tfl (dxD tTL)). apply poly2; [vr|vr|vr|exact uH_ok|exact uS_ok]. Qed.
Lemma th_ok : 1 / 3000 * h + -727 / 1000 <> 0 -> 10 / 53 * s + -864 / 1000 <> 0 -> ok (gap_th k H S) (ths h s - TLr h s).
Proof.
  intros N1 N2. unfold gap_th, ths. cbv zeta. apply (ok_sub u v Hu Hv); [|exact TL_ok].
  apply (ok_lin1 u v Hu Hv); [|apply (ratok_ok 900 1); vr]. change fth with (tfl tab_th). apply (psum_ok u v Hu Hv); [vr| |].
  - apply (bpi_ok u v Hu Hv); [exact N1|]. apply (sh1_ok _ 1 3000 _ _ _ (-727) 1000); [exact OH|vr|vr].
  - apply (bpi_ok u v Hu Hv); [exact N2|]. apply (sh1_ok _ 10 53 _ _ _ (-864) 1000); [exact OS|vr|vr].
Qed.
Lemma sab_ok : ok (tsab' k H S) (sabr h s).
Proof.
  unfold tsab', sabr. cbv zeta.
  apply (ok_lin3 u v Hu Hv); [exact OH| |exact (ok_tone u v)|apply (ratok_ok 1 1); vr|apply (ratok_ok (-1) 1); vr|apply (ratok_ok 349898083432139 100000000000); vr].
  apply (ok_mul u v Hu Hv); [|exact OS]. apply (lin_one u v Hu Hv); [|vr|vr]. apply (ok_mul u v Hu Hv); [|exact OS]. apply (lin_one u v Hu Hv); [exact OS|vr|vr].
Qed.
Lemma tq_ok a b c p q r pd qd rd X x : ok X x -> ratok p pd a = true -> ratok q qd b = true -> ratok r rd c = true ->
  ok (tq k a b c X) (IZR p / IZR (Zpos pd) * (x * x) + IZR q / IZR (Zpos qd) * x + IZR r / IZR (Zpos rd) * 1).
Proof.
  intros O A B C. apply (ok_lin3 u v Hu Hv); [apply (ok_mul u v Hu Hv); exact O|exact O|exact (ok_tone u v)|apply ratok_ok; exact A|apply ratok_ok; exact B|apply ratok_ok; exact C].
Qed.
Lemma gsp_ok X x : ok X x -> ok (gap_sp k X H S) (gspr x h s).
Proof.
  intros O. unfold gap_sp, gspr. apply (ok_lin2 u v Hu Hv); [|exact O|apply (ratok_ok 1 1); vr|apply (ratok_ok (-1000125) 1000000); vr].
  apply (tq_ok _ _ _ 10192970039326 (-11671859879975) 34805185628969 10000000000000000 10000000000000 100000000000); [exact TL_ok|vr|vr|vr].
Qed.
Lemma gtc_ok c : gtc c S = true -> val c < s.
Proof. intros G. pose proof (lpos_ok u v Hu Hv _ _ (ok_sub u v Hu Hv _ _ _ _ OS (ok_cst u v c)) G). lra. Qed.
Lemma ltc_ok c : ltc c S = true -> s < val c.
Proof. intros G. pose proof (lneg_ok u v Hu Hv _ _ (ok_sub u v Hu Hv _ _ _ _ OS (ok_cst u v c)) G). lra. Qed.
End Enc.

(* ---- lines ---- *)
Section Line1.
Variables (a b : float) (s : R).
Hypothesis B : between a b = true.
Hypothesis Hs : val a <= s <= val b.
Let u := upos a b s.
Let L := proj2 (proj2 (between_ok a b B)).
Lemma lu : Rabs u <= 1. Proof. apply upos_le; [exact L|exact Hs]. Qed.
Lemma lv : Rabs 0 <= 1. Proof. rewrite Rabs_R0. lra. Qed.
Lemma lx : ok u 0 (varu a b) s. Proof. apply ok_varu; [exact L|exact Hs|reflexivity]. Qed.
Variable k : nat.
Lemma l_ab_ok : l_ab k a b = true -> 0 < s /\ 0 < Uabr s /\ 0 < gabr s.
Proof.
  intros H. unfold l_ab in H. cbv zeta in H. apply andb_true_iff in H as [H H3]. apply andb_true_iff in H as [H1 H2].
  pose proof (lpos_ok _ _ lu lv _ _ lx H1) as P1. pose proof (lpos_ok _ _ lu lv _ _ (Uab_ok _ _ lu lv k _ _ lx) H2) as P2.
  split; [exact P1|]. split; [exact P2|]. exact (lpos_ok _ _ lu lv _ _ (gab_ok _ _ lu lv k _ _ lx P2) H3).
Qed.
Lemma l_cb_ok : l_cb k a b = true -> 0 < gcbr s.
Proof. intros H. exact (lpos_ok _ _ lu lv _ _ (gcb_ok _ _ lu lv k _ _ lx) H). Qed.
Lemma l_tb_ok : l_tb k a b = true -> 0 < gtopr (topb s) s /\ 0 < ytop (topb s).
Proof. intros H. exact (gtop_ok _ _ lu lv k _ _ lx _ _ (top_b_ok _ _ lu lv k _ _ lx) H). Qed.
Lemma l_tc_ok : l_tc k a b = true -> 0 < gtopr (topc s) s /\ 0 < ytop (topc s).
Proof. intros H. exact (gtop_ok _ _ lu lv k _ _ lx _ _ (top_c_ok _ _ lu lv k _ _ lx) H). Qed.
End Line1.

(* ---- boxes of h and s ---- *)
Section Hs.
Variables (x0 x1 y0 y1 : float) (h s : R).
Hypothesis B : boxok x0 x1 y0 y1 = true.
Hypothesis Hh : val x0 <= h <= val x1.
Hypothesis Hs : val y0 <= s <= val y1.
Let hu := Hu _ _ _ _ _ B Hh. Let hv' := Hv _ _ _ _ _ B Hs.
Let oh := okX x0 x1 y0 y1 h s B Hh. Let os := okY x0 x1 y0 y1 h s B Hs.
Variable k : nat.
Lemma th_box : lpos (gap_th k (varu x0 x1) (varv y0 y1)) = true -> 2563 <= h -> 5 <= s -> TLr h s < ths h s.
Proof.
  intros L H1 H2. pose proof (lpos_ok _ _ hu hv' _ _ (th_ok _ _ hu hv' k _ _ _ _ os oh ltac:(lra) ltac:(lra)) L). lra.
Qed.
Lemma slope_box : lpos (slopeE k (varu x0 x1) (varv y0 y1)) && lpos (psum k (bp k c8 (uH k (varu x0 x1))) (bp k c8 (uS k (varv y0 y1))) fTLx) && gtc 580 (tTLe k (varu x0 x1) (varv y0 y1)) = true ->
  0 < sloper h s /\ 0 < Px (map rrow tTL) (uHr h) (uSr s) /\ 580 < TLr h s.
Proof.
  intros L. apply andb_true_iff in L as [L L3]. apply andb_true_iff in L as [L1 L2]. split; [exact (lpos_ok _ _ hu hv' _ _ (slope_ok _ _ hu hv' k _ _ _ _ os oh) L1)|].
  split; [exact (lpos_ok _ _ hu hv' _ _ (TLx_ok _ _ hu hv' k _ _ _ _ os oh) L2)|].
  pose proof (gtc_ok _ _ hu hv' _ _ (TL_ok _ _ hu hv' k _ _ _ _ os oh) _ L3) as G. replace (val 580%float) with 580 in G by (flv; lra). exact G.
Qed.
End Hs.

(* ---- h and s of a state ---- *)
Section HsE.
Variables (u v : R).
Hypothesis Hu : Rabs u <= 1.
Hypothesis Hv : Rabs v <= 1.
Notation ok := (ok u v).
Variable k : nat.
Variables (X L Y : tm) (x y : R).
Hypothesis OX : ok X x.
Hypothesis OL : ok L (ln x).
Hypothesis OY : ok Y y.
Hypothesis Yp : 0 < y.
Lemma hE_ok : ok (hE k X Y) (hv x y).
Proof. unfold hE, hv. apply (ok_lin1 u v Hu Hv); [exact (hh_ok u v Hu Hv k _ _ _ _ OX OY Yp)|apply (ratok_ok 24922404 100000); vm_compute; reflexivity]. Qed.
Lemma sE_ok : ok (sE k X L Y) (sv x y).
Proof. unfold sE, sv. apply (ok_lin1 u v Hu Hv); [exact (ss_ok u v Hu Hv k _ _ _ _ OX OY Yp _ OL)|apply (ratok_ok 461526 1000000); vm_compute; reflexivity]. Qed.
End HsE.

(* ---- the line above saturation ---- *)
Definition Ts_of (y : R) : R := 1 / 1 * yT y + -1 / 10.
Definition bs (y : R) : R := be (th (Ts_of y)).
Definition horr (d : R) (cs : list float) : R := fold_right (fun c a => val c + d * a) (val 0%float) cs.
Definition FA (x y : R) : Prop :=
  (val f585l <= sv x y <= val f915 -> Uabr (sv x y) + / 16 < hv x y) /\
  (sv x y <= val f585h -> val f52 < sv x y /\ val f552 < yT y /\ Ucbr (sv x y) + / 16 < hv x y) /\
  (sv x y <= val f526h -> val f617 < yT y /\ val f2563 < hv x y /\ 0 < gspr x (hv x y) (sv x y)) /\
  (sv x y <= val f604 -> val f520 < yT y) /\
  0 < 1 / 1 * hv x y + -27315 / 100 * sv x y + 97 / 32768 * 1.
Lemma v16 : val 0x1p-4%float = / 16. Proof. flv. lra. Qed.
Lemma rb_val : val rb = / 268435456 /\ val (- rb)%float = - / 268435456 /\ fin rb.
Proof. unfold rb. split; [flv; lra|]. split; [flv; lra|]. eapply fin_SF. vm_compute. reflexivity. Qed.
Lemma ok_err u v r x : fin r -> Rabs x <= val r -> ok u v (TM [] r) x.
Proof. intros F A. split; [apply wf_TM|]. intros _ _. cbn. unfold L2. cbn. rewrite Rminus_0_r. exact A. Qed.
Lemma gt_or u v t s c : Rabs u <= 1 -> Rabs v <= 1 -> ok u v t s -> s <= val c -> gtc c t = false.
Proof. intros Hu Hv O L. destruct (gtc c t) eqn:E; [|reflexivity]. pose proof (gtc_ok u v Hu Hv _ _ O _ E). lra. Qed.
Lemma lt_or u v t s c : Rabs u <= 1 -> Rabs v <= 1 -> ok u v t s -> val c <= s -> ltc c t = false.
Proof. intros Hu Hv O L. destruct (ltc c t) eqn:E; [|reflexivity]. pose proof (ltc_ok u v Hu Hv _ _ O _ E). lra. Qed.
Lemma gap16 u v A B a b : Rabs u <= 1 -> Rabs v <= 1 -> ok u v A a -> ok u v B b -> lpos (tsub (tsub A B) (cst 0x1p-4%float)) = true -> b + / 16 < a.
Proof.
  intros Hu Hv OA OB L. pose proof (lpos_ok u v Hu Hv _ _ (ok_sub u v Hu Hv _ _ _ _ (ok_sub u v Hu Hv _ _ _ _ OA OB) (ok_cst u v _)) L) as H.
  rewrite v16 in H. lra.
Qed.
Section Sat.
Variables (u v : R).
Hypothesis Hu : Rabs u <= 1.
Hypothesis Hv : Rabs v <= 1.
Notation ok := (ok u v).
Variable k : nat.
Ltac vr := vm_compute; reflexivity.
Lemma hor_ok D d cs : ok D d -> ok (hor k D cs) (horr d cs).
Proof.
  intros O. induction cs as [|c cs IH]; [exact (ok_cst u v _)|]. cbn [hor horr fold_right].
  apply (ok_add u v Hu Hv); [apply ok_cst|]. apply (ok_mul u v Hu Hv); [exact O|exact IH].
Qed.
Variables (x : tm) (z : R).
Hypothesis OX : ok x z.
Lemma eA_ok : ok (eA k x) (cA z).
Proof. pose proof (tq_ok u v Hu Hv k 1%float 1167.0521452767%float (-724213.16703206)%float 1 11670521452767 (-72421316703206) 1 10000000000 100000000 _ _ OX ltac:(vr) ltac:(vr) ltac:(vr)) as O.
  match type of O with Taylor.ok _ _ _ ?w => replace (cA z) with w by (unfold cA; lra) end. exact O. Qed.
Lemma eB_ok : ok (eB k x) (cB z).
Proof. pose proof (tq_ok u v Hu Hv k (-17.073846940092)%float 12020.824702470%float (-3232555.0322333)%float (-17073846940092) 12020824702470 (-32325550322333) 1000000000000 1000000000 10000000 _ _ OX ltac:(vr) ltac:(vr) ltac:(vr)) as O.
  match type of O with Taylor.ok _ _ _ ?w => replace (cB z) with w by (unfold cB; lra) end. exact O. Qed.
Lemma eC_ok : ok (eC k x) (cC z).
Proof. pose proof (tq_ok u v Hu Hv k 14.915108613530%float (-4823.2657361591)%float 405113.40542057%float 14915108613530 (-48232657361591) 40511340542057 1000000000000 10000000000 100000000 _ _ OX ltac:(vr) ltac:(vr) ltac:(vr)) as O.
  match type of O with Taylor.ok _ _ _ ?w => replace (cC z) with w by (unfold cC; lra) end. exact O. Qed.
Lemma ePol_ok B b : ok B b -> ok (ePol k x B) (cA z * b ^ 2 + cB z * b + cC z).
Proof.
  intros O. replace (b ^ 2) with (b * b) by ring. apply (ok_add u v Hu Hv); [|exact eC_ok]. apply (ok_add u v Hu Hv).
  - apply (ok_mul u v Hu Hv); [exact eA_ok|]. apply (ok_mul u v Hu Hv); exact O.
  - apply (ok_mul u v Hu Hv); [exact eB_ok|exact O].
Qed.
Lemma satok_ok B b : ok B b -> 273.15 <= z <= 647.2 -> satok k x B = true -> Rabs (be z - b) <= val rb.
Proof.
  intros O Hz H. unfold satok in H. cbv zeta in H. apply andb_true_iff in H as [H H4]. apply andb_true_iff in H as [H H3]. apply andb_true_iff in H as [H1 H2].
  destruct rb_val as (R1 & R2 & _).
  pose proof (ok_add u v Hu Hv _ _ _ _ O (ok_cst u v rb)) as O1. pose proof (ok_add u v Hu Hv _ _ _ _ O (ok_cst u v (- rb)%float)) as O2.
  rewrite R1 in O1. rewrite R2 in O2.
  pose proof (lpos_ok u v Hu Hv _ _ O2 H1) as P1. pose proof (lneg_ok u v Hu Hv _ _ (ePol_ok _ _ O1) H2) as P2. pose proof (lpos_ok u v Hu Hv _ _ (ePol_ok _ _ O2) H3) as P3.
  pose proof (lpos_ok u v Hu Hv _ _ (ok_add u v Hu Hv _ _ _ _ (ok_lin1 u v Hu Hv k _ _ _ _ eC_ok (ratok_ok 2 1 2%float ltac:(vr))) (ok_mul u v Hu Hv k _ _ _ _ O2 eB_ok)) H4) as P4.
  assert (P5 : 0 < b + / 268435456) by lra.
  unfold Rdiv in P4. rewrite Rinv_1, Rmult_1_r in P4.
  pose proof (be_ge _ z Hz P1 (Rlt_le _ _ P4) (Rlt_le _ _ P3)) as K1. pose proof (be_le _ z Hz P5 (Rlt_le _ _ P2)) as K2.
  rewrite R1. apply Rabs_le. lra.
Qed.
End Sat.

Lemma lfA_ok k c cs y0 y1 y : lfA k c cs y0 y1 = true -> val y0 <= y <= val y1 -> 273.15 <= Ts_of y <= 647.096 -> FA (xq (bs y)) y.
Proof.
  intros H Hy HT. unfold lfA in H. destruct (bpos y0 y1) eqn:B; [|discriminate]. cbv zeta in H.
  destruct (bpos_ok _ _ B) as (_ & _ & L & P). pose proof (upos_le _ _ _ L Hy) as Hu. pose proof lv as Hv.
  pose proof (ok_varu y0 y1 _ 0 y L Hy eq_refl) as OY. set (u := upos y0 y1 y) in *. assert (Yp : 0 < y) by lra.
  pose proof (T2_ok u 0 Hu Hv k _ _ OY) as OT. set (T := T2 k (varu y0 y1)) in *.
  pose proof (lin_one u 0 Hu Hv k 1%float 1 1 _ _ (-0.1)%float (-1) 10 OT ltac:(vm_compute; reflexivity) ltac:(vm_compute; reflexivity)) as OTs.
  fold (Ts_of y) in OTs. set (Ts := tlin k [(1%float, T); ((-0.1)%float, one)]) in *.
  assert (OX : ok u 0 (tlin k [(1%float, Ts); ((-0.23855557567849)%float, tinv k (tlin k [(1%float, Ts); ((-650.17534844798)%float, one)]))]) (th (Ts_of y))).
  { pose proof (lin_one u 0 Hu Hv k 1%float 1 1 _ _ (-650.17534844798)%float (-65017534844798) 100000000000 OTs ltac:(vm_compute; reflexivity) ltac:(vm_compute; reflexivity)) as O1.
    pose proof (ok_lin2 u 0 Hu Hv k _ _ _ _ _ _ _ _ OTs (ok_inv u 0 Hu Hv k _ _ O1) (ratok_ok 1 1 1%float ltac:(vm_compute; reflexivity)) (ratok_ok (-23855557567849) 100000000000000 (-0.23855557567849)%float ltac:(vm_compute; reflexivity))) as O2.
    match type of O2 with ok _ _ _ ?w => replace (th (Ts_of y)) with w end; [exact O2|]. unfold th. 
    replace (1 / 1 * Ts_of y + -65017534844798 / 100000000000) with (Ts_of y - 650.17534844798) by lra. unfold Rdiv at 3. 
    replace (-23855557567849 / 100000000000000) with (-0.23855557567849) by lra. lra. }
  pose proof (hor_ok u 0 Hu Hv k _ _ cs (ok_add u 0 Hu Hv _ _ _ _ OY (ok_cst u 0 (- c)%float))) as OB. set (b := horr _ cs) in *.
  set (Bt := hor k _ cs) in *. destruct (satok k _ Bt) eqn:Sk; [|discriminate].
  pose proof (th_range _ HT) as Hz. pose proof (satok_ok u 0 Hu Hv k _ _ OX _ _ OB Hz Sk) as AB. fold (bs y) in AB.
  assert (Bp : 0 < bs y) by (apply be_pos; exact Hz).
  assert (OQ : ok u 0 (tadd Bt (TM [] rb)) (bs y)).
  { replace (bs y) with (b + (bs y - b)) by ring. apply (ok_add u 0 Hu Hv); [exact OB|]. apply ok_err; [exact (proj2 (proj2 rb_val))|exact AB]. }
  set (Q := tadd Bt (TM [] rb)) in *. clearbody Q. set (q := bs y) in *. clearbody q.
  assert (OQ2 := ok_mul _ _ Hu Hv k _ _ _ _ OQ OQ). assert (OXX := ok_mul _ _ Hu Hv k _ _ _ _ OQ2 OQ2). fold (xq q) in OXX.
  assert (OL : ok u 0 (tlin k [(4%float, tln k Q)]) (ln (xq q))).
  { unfold xq. rewrite ln4 by exact Bp. apply (ok_lin1 _ _ Hu Hv); [exact (tln_ok _ _ k _ _ Hu Hv Bp OQ)|apply (ratok_ok 4 1); vm_compute; reflexivity]. }
  pose proof (hE_ok u 0 Hu Hv k _ _ _ _ OXX OY Yp) as OH. pose proof (sE_ok u 0 Hu Hv k _ _ _ _ _ OXX OL OY Yp) as OS.
  apply andb_true_iff in H as [H H5]. apply andb_true_iff in H as [H H4]. apply andb_true_iff in H as [H H3]. apply andb_true_iff in H as [H1 H2].
  set (X := tmul k _ _) in *. set (Hh := hE k X _) in *. set (Ss := sE k X _ _) in *. unfold FA. set (h := hv (xq q) y) in *. set (s := sv (xq q) y) in *.
  split; [|split; [|split; [|split]]].
  - intros [A1 A2]. rewrite (lt_or u 0 _ _ _ Hu Hv OS A1), (gt_or u 0 _ _ _ Hu Hv OS A2) in H1.
    exact (gap16 u 0 _ _ _ _ Hu Hv OH (Uab_ok u 0 Hu Hv k _ _ OS) H1).
  - intros A. rewrite (gt_or u 0 _ _ _ Hu Hv OS A) in H2. apply andb_true_iff in H2 as [H2 C3]. apply andb_true_iff in H2 as [C1 C2].
    split; [exact (gtc_ok u 0 Hu Hv _ _ OS _ C1)|]. split; [exact (gtc_ok u 0 Hu Hv _ _ OT _ C2)|].
    exact (gap16 u 0 _ _ _ _ Hu Hv OH (Ucb_ok u 0 Hu Hv k _ _ OS) C3).
  - intros A. rewrite (gt_or u 0 _ _ _ Hu Hv OS A) in H3. apply andb_true_iff in H3 as [H3 C3]. apply andb_true_iff in H3 as [C1 C2].
    split; [exact (gtc_ok u 0 Hu Hv _ _ OT _ C1)|]. split; [exact (gtc_ok u 0 Hu Hv _ _ OH _ C2)|].
    exact (lpos_ok u 0 Hu Hv _ _ (gsp_ok u 0 Hu Hv k _ _ _ _ OS OH _ _ OXX) C3).
  - intros A. rewrite (gt_or u 0 _ _ _ Hu Hv OS A) in H4. exact (gtc_ok u 0 Hu Hv _ _ OT _ H4).
  - refine (lpos_ok u 0 Hu Hv _ _ (ok_lin3 u 0 Hu Hv k _ _ _ _ _ _ _ _ _ _ _ _ OH OS (ok_tone u 0) _ _ _) H5); [apply (ratok_ok 1 1)|apply (ratok_ok (-27315) 100)|apply (ratok_ok 97 32768)]; vm_compute; reflexivity.
Qed.

(* ---- the line below the boundary with region 3 ---- *)
Definition yB (T : R) : R := 540 / 1 * / T + -5 / 10.
Definition xB (T : R) : R := 10192970039326 / 10010000000000000 * (T * T) + -11671859879975 / 10010000000000 * T + 34805185628969 / 100100000000 * 1.
Definition FB (x y : R) : Prop :=
  val f504 < sv x y /\ sv x y < val f530 /\ val f2563 < hv x y /\ Ucbr (sv x y) + / 16 < hv x y /\
  (sv x y <= val f526h -> hv x y <= val f2812h -> 0 < gspr x (hv x y) (sv x y)).
Lemma lfB_ok k t0 t1 T : lfB k t0 t1 = true -> val t0 <= T <= val t1 -> 0 < xB T -> 0 < yB T -> FB (xB T) (yB T).
Proof.
  intros H HT Xp Yp. unfold lfB in H. destruct (bpos t0 t1) eqn:B; [|discriminate]. cbv zeta in H.
  destruct (bpos_ok _ _ B) as (_ & _ & L & P). pose proof (upos_le _ _ _ L HT) as Hu. pose proof lv as Hv.
  pose proof (ok_varu t0 t1 _ 0 T L HT eq_refl) as OT. set (u := upos t0 t1 T) in *.
  pose proof (lin_one u 0 Hu Hv k 540%float 540 1 _ _ (-0.5)%float (-5) 10 (ok_inv u 0 Hu Hv k _ _ OT) ltac:(vm_compute; reflexivity) ltac:(vm_compute; reflexivity)) as OY.
  fold (yB T) in OY.
  pose proof (tq_ok u 0 Hu Hv k 0x1.0aef874abad45p-10%float (-0x1.2a8048dd2b671p+0)%float 0x1.5bb4435082324p+8%float
     10192970039326 (-11671859879975) 34805185628969 10010000000000000 10010000000000 100100000000 _ _ OT ltac:(vm_compute; reflexivity) ltac:(vm_compute; reflexivity) ltac:(vm_compute; reflexivity)) as OX.
  fold (xB T) in OX. set (X := tq k _ _ _ _) in *. set (Y := tlin k _) in *.
  pose proof (hE_ok u 0 Hu Hv k _ _ _ _ OX OY Yp) as OH. pose proof (sE_ok u 0 Hu Hv k _ _ _ _ _ OX (tln_ok _ _ k _ _ Hu Hv Xp OX) OY Yp) as OS.
  apply andb_true_iff in H as [H H5]. apply andb_true_iff in H as [H H4]. apply andb_true_iff in H as [H H3]. apply andb_true_iff in H as [H1 H2].
  unfold FB. set (h := hv (xB T) (yB T)) in *. set (s := sv (xB T) (yB T)) in *.
  split; [exact (gtc_ok u 0 Hu Hv _ _ OS _ H1)|]. split; [exact (ltc_ok u 0 Hu Hv _ _ OS _ H2)|]. split; [exact (gtc_ok u 0 Hu Hv _ _ OH _ H3)|].
  split; [exact (gap16 u 0 _ _ _ _ Hu Hv OH (Ucb_ok u 0 Hu Hv k _ _ OS) H4)|].
  intros A1 A2. rewrite (gt_or u 0 _ _ _ Hu Hv OS A1), (gt_or u 0 _ _ _ Hu Hv OH A2) in H5.
  exact (lpos_ok u 0 Hu Hv _ _ (gsp_ok u 0 Hu Hv k _ _ _ _ OS OH _ _ OX) H5).
Qed.

(* ---- the interior ---- *)
Definition FM (q y : R) : Prop :=
  let h := hv (xq q) y in let s := sv (xq q) y in
  (s <= val f604 -> val f526l <= s \/ val f2812l <= h -> val f509 < s /\ h < Ltopr s) /\
  (s <= val f526h -> h <= val f2812h -> 0 < sabr h s /\ Taur h s < yT y).
Lemma lfm_ok k' n k x0 x1 y0 y1 q y : lfm k' n k x0 x1 y0 y1 = true -> 0 < q ->
  val x0 <= q <= val x1 -> val y0 <= y <= val y1 -> reg2xy (xq q) y -> FM q y.
Proof.
  intros H Pq Hx Hy Rg. unfold lfm in H. destruct (boxnn x0 x1 y0 y1) eqn:B; [|discriminate]. cbv zeta in H.
  destruct (boxnn_ok _ _ _ _ B) as (B1 & B2 & B3 & B4). pose proof (Hu2 _ _ _ _ _ B Hx) as Hu. pose proof (Hv2 _ _ _ _ _ B Hy) as Hv. pose proof (y_pos2 _ _ _ _ _ B Hy) as Yp.
  pose proof (okX2 _ _ _ _ _ y B Hx) as OQ. pose proof (okY2 _ _ _ _ q _ B Hy) as OY.
  assert (OQ2 := ok_mul _ _ Hu Hv k _ _ _ _ OQ OQ). assert (OX := ok_mul _ _ Hu Hv k _ _ _ _ OQ2 OQ2). fold (xq q) in OX.
  assert (OL : ok (upos x0 x1 q) (upos y0 y1 y) (tlin k [(4%float, tln k (varu x0 x1))]) (ln (xq q))).
  { unfold xq. rewrite ln4 by exact Pq. apply (ok_lin1 _ _ Hu Hv); [exact (tln_ok _ _ k _ _ Hu Hv Pq OQ)|apply (ratok_ok 4 1); vm_compute; reflexivity]. }
  pose proof (hE_ok _ _ Hu Hv k _ _ _ _ OX OY Yp) as OH. pose proof (sE_ok _ _ Hu Hv k _ _ _ _ _ OX OL OY Yp) as OS.
  set (X := tmul k _ _) in *. set (Hh := hE k X _) in *. set (Ss := sE k X _ _) in *. unfold FM. set (h := hv (xq q) y) in *. set (s := sv (xq q) y) in *.
  cbv zeta. revert H.
  apply (inner_ok k' test_m pick_m oq q y [s; h; Ltopr s - h; sabr h s; yT y - Taur h s]); try assumption.
  - intros u v l Hu' Hv' F T. destruct l as [|e [|d [|ga [|gb [|gc [|g' l]]]]]]; try discriminate T.
    inversion F as [|? ? ? ? F1 G1]; subst. inversion G1 as [|? ? ? ? F2 G2]; subst. inversion G2 as [|? ? ? ? F3 G3]; subst. inversion G3 as [|? ? ? ? F4 G4]; subst. inversion G4 as [|? ? ? ? F5 G5]; subst.
    cbn [test_m] in T. apply andb_true_iff in T as [T1 T2]. split.
    + intros A1 A2. rewrite (gt_or u v _ _ _ Hu' Hv' F1 A1) in T1.
      assert (E : ltc f526l e && ltc f2812l d = false).
      { apply andb_false_iff. destruct A2 as [A2|A2]; [left; exact (lt_or u v _ _ _ Hu' Hv' F1 A2)|right; exact (lt_or u v _ _ _ Hu' Hv' F2 A2)]. }
      rewrite E in T1. apply andb_true_iff in T1 as [T1 T3]. split; [exact (gtc_ok u v Hu' Hv' _ _ F1 _ T1)|]. pose proof (lpos_ok _ _ Hu' Hv' _ _ F3 T3). lra.
    + intros A1 A2. rewrite (gt_or u v _ _ _ Hu' Hv' F1 A1), (gt_or u v _ _ _ Hu' Hv' F2 A2) in T2. apply andb_true_iff in T2 as [T2 T3].
      split; [exact (lpos_ok _ _ Hu' Hv' _ _ F4 T2)|]. pose proof (lpos_ok _ _ Hu' Hv' _ _ F5 T3). lra.
  - intros a0 a1 b0 b1 O Ha Hb. destruct (oq_ok _ _ _ _ _ _ O Ha Hb Rg).
  - constructor; [exact OS|]. constructor; [exact OH|]. constructor; [|constructor; [|constructor; [|constructor]]].
    + match goal with |- ok _ _ (if ?c then _ else _) _ => destruct c end; [apply ok_bad|].
      match goal with |- ok _ _ (if ?c then _ else _) _ => destruct c end; [apply ok_bad|]. apply (ok_sub _ _ Hu Hv); [exact (Ltop_ok _ _ Hu Hv k _ _ OS)|exact OH].
    + match goal with |- ok _ _ (if ?c then _ else _) _ => destruct c end; [|apply ok_bad]. exact (sab_ok _ _ Hu Hv k _ _ _ _ OS OH).
    + match goal with |- ok _ _ (if ?c then _ else _) _ => destruct c end; [|apply ok_bad]. apply (ok_sub _ _ Hu Hv); [exact (T2_ok _ _ Hu Hv k _ _ OY)|exact (Tau_ok _ _ Hu Hv k _ _ _ _ OS OH)].
Qed.

(* ---- the enthalpies at 799 and 800 C ---- *)
Definition y8 : R := 54000 / 107315 * 1 + -5 / 10.
Definition y7 : R := 54000 / 107215 * 1 + -5 / 10.
Lemma lfE_ok k a b q : lfE k a b = true -> val a <= q <= val b -> hv (xq q) y7 < hv (1000126 / 1000000 * xq q) y8.
Proof.
  intros H Hq. unfold lfE in H. destruct (bpos a b) eqn:B; [|discriminate]. cbv zeta in H.
  destruct (bpos_ok _ _ B) as (_ & _ & L & P). pose proof (upos_le _ _ _ L Hq) as Hu. pose proof lv as Hv.
  pose proof (ok_varu a b _ 0 q L Hq eq_refl) as OQ. set (u := upos a b q) in *.
  assert (OQ2 := ok_mul _ _ Hu Hv k _ _ _ _ OQ OQ). assert (OX := ok_mul _ _ Hu Hv k _ _ _ _ OQ2 OQ2). fold (xq q) in OX.
  pose proof (ok_lin1 u 0 Hu Hv k _ _ _ _ OX (ratok_ok 1000126 1000000 1.000126%float ltac:(vm_compute; reflexivity))) as OX2.
  pose proof (lin_one u 0 Hu Hv k 0x1.01a25246a27a0p-1%float 54000 107315 _ _ (-0.5)%float (-5) 10 (ok_tone u 0) ltac:(vm_compute; reflexivity) ltac:(vm_compute; reflexivity)) as O8. fold y8 in O8.
  pose proof (lin_one u 0 Hu Hv k 0x1.01dfd65baa2f6p-1%float 54000 107215 _ _ (-0.5)%float (-5) 10 (ok_tone u 0) ltac:(vm_compute; reflexivity) ltac:(vm_compute; reflexivity)) as O7. fold y7 in O7.
  assert (P8 : 0 < y8) by (unfold y8; lra). assert (P7 : 0 < y7) by (unfold y7; lra).
  pose proof (lpos_ok u 0 Hu Hv _ _ (ok_sub u 0 Hu Hv _ _ _ _ (hE_ok u 0 Hu Hv k _ _ _ _ OX2 O8 P8) (hE_ok u 0 Hu Hv k _ _ _ _ OX O7 P7)) H). lra.
Qed.
