(* The enclosures of Enc2hs are correct. *)
From Coq Require Import ZArith List Bool Floats Reals Lra.
From Verif Require Import Num FloatUp FloatErr RSums Taylor TaylorSum TaylorSub Enc1 Enc2 Enc2hs SpecReal SatInv Bound1 Tree1 Bound2 Tree2.
Import ListNotations.
Open Scope R_scope.
Opaque tmul tlin tadd tsub tinv chain gsum varu varv look inner tln.

Definition piA (h s : R) : R := P (map rrow thsa) (24922404 / 420000000 * h + -5 / 10) (461526 / 12000000 * s + -12 / 10).
Definition piB (h s : R) : R := P (map rrow thsb) (24922404 / 410000000 * h + -6 / 10) (461526 / 7900000 * s + -101 / 100).
Definition piC (h s : R) : R := P (map rrow thsc) (24922404 / 350000000 * h + -7 / 10) (461526 / 5900000 * s + -11 / 10).
Definition sqg (c iq pi : R) : R := c / 1 * (pi * iq * (pi * iq)) + -1 / 1.
Definition zS (s : R) : R := 461526 / 1000000 * s.
Definition sab (h s : R) : R :=
  24922404 / 100000 * h + -1 / 1 * ((1 / 1 * ((276349063799944 / 10000000000000 * zS s + -421073558227969 / 1000000000000) * zS s) + 257560716905876 / 100000000000) * zS s)
  + 349898083432139 / 100000000000 * 1.
Definition xq (q : R) : R := q * q * (q * q).
Definition g_a (q y : R) : R := sqg 2 (/ q) (piA (vH (xq q) y) (vS (xq q) y)).
Definition g_b (q y : R) : R := sqg 10 (/ q) (piB (vH (xq q) y) (vS (xq q) y)).
Definition g_c (q y : R) : R := sqg 10 (/ q) (piC (vH (xq q) y) (vS (xq q) y)).
Definition sab2 (q y : R) : R := sab (vH (xq q) y) (vS (xq q) y).

Section Enc.
Variables (u v : R).
Hypothesis Hu : Rabs u <= 1.
Hypothesis Hv : Rabs v <= 1.
Notation ok := (ok u v).
Variable k : nat.
Variables (h s iq : tm) (eh es ei : R).
Hypothesis OH : ok h eh.
Hypothesis OS : ok s es.
Hypothesis OI : ok iq ei.
Lemma sqgap_ok f c pi w : ok pi w -> ratok c 1 f = true -> ok (sqgap f k iq pi) (sqg (IZR c) ei w).
Proof.
  intros H1 H2. unfold sqgap, sqg. cbv zeta. apply (lin_one u v Hu Hv k f c 1 _ _ (-1)%float (-1) 1); [|exact H2|vm_compute; reflexivity].
  apply (ok_mul u v Hu Hv); apply (ok_mul u v Hu Hv); assumption.
Qed.
Ltac one := apply (bp_ok2 u v Hu Hv); [reflexivity|]; apply (lin_one u v Hu Hv); [assumption|vm_compute; reflexivity|vm_compute; reflexivity].
Lemma gap_hsa_ok : ok (gap_hsa k iq h s) (sqg 2 ei (piA eh es)).
Proof. unfold gap_hsa, piA. apply (sqgap_ok _ 2); [|vm_compute; reflexivity]. change fhsa with (tfl thsa). apply (psum_ok u v Hu Hv k); [vm_compute; reflexivity|one|one]. Qed.
Lemma gap_hsb_ok : ok (gap_hsb k iq h s) (sqg 10 ei (piB eh es)).
Proof. unfold gap_hsb, piB. apply (sqgap_ok _ 10); [|vm_compute; reflexivity]. change fhsb with (tfl thsb). apply (psum_ok u v Hu Hv k); [vm_compute; reflexivity|one|one]. Qed.
Lemma gap_hsc_ok : ok (gap_hsc k iq h s) (sqg 10 ei (piC eh es)).
Proof. unfold gap_hsc, piC. apply (sqgap_ok _ 10); [|vm_compute; reflexivity]. change fhsc with (tfl thsc). apply (psum_ok u v Hu Hv k); [vm_compute; reflexivity|one|one]. Qed.
Lemma tsab_ok : ok (tsab k h s) (sab eh es).
Proof.
  unfold tsab, sab. cbv zeta.
  assert (Z : ok (tlin k [(kS, s)]) (zS es)) by (apply (ok_lin1 u v Hu Hv); [exact OS|apply (ratok_ok 461526 1000000); vm_compute; reflexivity]).
  apply (ok_lin3 u v Hu Hv); [exact OH| |exact (ok_tone u v)|apply (ratok_ok 24922404 100000); vm_compute; reflexivity|apply (ratok_ok (-1) 1); vm_compute; reflexivity|
    apply (ratok_ok 349898083432139 100000000000); vm_compute; reflexivity].
  apply (ok_mul u v Hu Hv); [|exact Z]. apply (lin_one u v Hu Hv); [|vm_compute; reflexivity|vm_compute; reflexivity].
  apply (ok_mul u v Hu Hv); [|exact Z]. apply (lin_one u v Hu Hv); [exact Z|vm_compute; reflexivity|vm_compute; reflexivity].
Qed.
End Enc.

Lemma lfhs_ok tol k' n k x0 x1 y0 y1 q y : fin tol -> lfhs tol k' n k x0 x1 y0 y1 = true -> 0 < q ->
  val x0 <= q <= val x1 -> val y0 <= y <= val y1 -> reg2xy (xq q) y ->
  (sab2 q y <= 0 -> Rabs (g_a q y) <= val tol) /\
  (0 < sab2 q y -> 5.85 <= sv (xq q) y -> Rabs (g_b q y) <= val tol) /\
  (0 < sab2 q y -> sv (xq q) y < 5.85 -> Rabs (g_c q y) <= val tol).
Proof.
  intros Ft H Pq Hx Hy Rg. unfold lfhs in H. destruct (boxnn x0 x1 y0 y1) eqn:B; [|discriminate]. cbv zeta in H.
  destruct (boxnn_ok _ _ _ _ B) as (B1 & B2 & B3 & B4). pose proof (Hu2 _ _ _ _ _ B Hx) as Hu. pose proof (Hv2 _ _ _ _ _ B Hy) as Hv. pose proof (y_pos2 _ _ _ _ _ B Hy) as Yp.
  pose proof (okX2 _ _ _ _ _ y B Hx) as OQ. pose proof (okY2 _ _ _ _ q _ B Hy) as OY.
  assert (OQ2 := ok_mul _ _ Hu Hv k _ _ _ _ OQ OQ). assert (OX := ok_mul _ _ Hu Hv k _ _ _ _ OQ2 OQ2). fold (xq q) in OX.
  assert (OL : ok (upos x0 x1 q) (upos y0 y1 y) (tlin k [(4%float, tln k (varu x0 x1))]) (ln (xq q))).
  { unfold xq. rewrite ln4 by exact Pq. apply (ok_lin1 _ _ Hu Hv); [exact (tln_ok _ _ k _ _ Hu Hv Pq OQ)|apply (ratok_ok 4 1); vm_compute; reflexivity]. }
  pose proof (ss_ok _ _ Hu Hv k _ _ _ _ OX OY Yp _ OL) as OS. pose proof (hh_ok _ _ Hu Hv k _ _ _ _ OX OY Yp) as OH.
  pose proof (ok_inv _ _ Hu Hv k _ _ OQ) as OI. 
  pose proof (tsab_ok _ _ Hu Hv k _ _ _ _ OH OS) as OE. fold (sab2 q y) in OE.
  assert (OD := lin_one _ _ Hu Hv k kS 461526 1000000 _ _ (-5.85)%float (-585) 100 OS ltac:(vm_compute; reflexivity) ltac:(vm_compute; reflexivity)).
  fold (sv (xq q) y) in OD.
  revert H. apply (inner_ok k' (test5 tol) pick5 oq q y [sab2 q y; sv (xq q) y + -585 / 100; g_a q y; g_b q y; g_c q y]); try assumption.
  - intros u v l Hu' Hv' F T. destruct l as [|e [|d [|ga [|gb [|gc [|g' l]]]]]]; try discriminate T.
    inversion F as [|? ? ? ? F1 G1]; subst. inversion G1 as [|? ? ? ? F2 G2]; subst. inversion G2 as [|? ? ? ? F3 G3]; subst. inversion G3 as [|? ? ? ? F4 G4]; subst. inversion G4 as [|? ? ? ? F5 G5]; subst.
    cbn [test5] in T. apply andb_true_iff in T as [T1 T2]. split; [|split].
    + intros S. destruct (lpos e) eqn:Es; [pose proof (lpos_ok _ _ Hu' Hv' _ _ F1 Es); lra|]. exact (absle_ok _ _ Hu' Hv' _ _ _ F3 Ft T1).
    + intros S S2. destruct (lneg e) eqn:Es; [pose proof (lneg_ok _ _ Hu' Hv' _ _ F1 Es); lra|]. apply andb_true_iff in T2 as [T2 T3].
      destruct (lneg d) eqn:Ed; [pose proof (lneg_ok _ _ Hu' Hv' _ _ F2 Ed); lra|]. exact (absle_ok _ _ Hu' Hv' _ _ _ F4 Ft T2).
    + intros S S2. destruct (lneg e) eqn:Es; [pose proof (lneg_ok _ _ Hu' Hv' _ _ F1 Es); lra|]. apply andb_true_iff in T2 as [T2 T3].
      destruct (lpos d) eqn:Ed; [pose proof (lpos_ok _ _ Hu' Hv' _ _ F2 Ed); lra|]. exact (absle_ok _ _ Hu' Hv' _ _ _ F5 Ft T3).
  - intros a0 a1 b0 b1 O Ha Hb. destruct (oq_ok _ _ _ _ _ _ O Ha Hb Rg).
  - constructor; [exact OE|]. constructor; [exact OD|]. constructor; [|constructor; [|constructor; [|constructor]]].
    + match goal with |- ok _ _ (if ?c then _ else _) _ => destruct c end; [apply ok_bad|]. exact (gap_hsa_ok _ _ Hu Hv k _ _ _ _ _ _ OH OS OI).
    + match goal with |- ok _ _ (if ?c then _ else _) _ => destruct c end; [apply ok_bad|].
      match goal with |- ok _ _ (if ?c then _ else _) _ => destruct c end; [apply ok_bad|]. exact (gap_hsb_ok _ _ Hu Hv k _ _ _ _ _ _ OH OS OI).
    + match goal with |- ok _ _ (if ?c then _ else _) _ => destruct c end; [apply ok_bad|].
      match goal with |- ok _ _ (if ?c then _ else _) _ => destruct c end; [apply ok_bad|]. exact (gap_hsc_ok _ _ Hu Hv k _ _ _ _ _ _ OH OS OI).
Qed.
Lemma tolhs_ok : fin tolhs /\ val tolhs = / 16384.
Proof. split; [eapply fin_SF; vm_compute; reflexivity|]. unfold tolhs. flv. lra. Qed.
Definition hs_ok (q y : R) : Prop :=
  (sab2 q y <= 0 -> Rabs (g_a q y) <= / 16384) /\
  (0 < sab2 q y -> 5.85 <= sv (xq q) y -> Rabs (g_b q y) <= / 16384) /\
  (0 < sab2 q y -> sv (xq q) y < 5.85 -> Rabs (g_c q y) <= / 16384).
