(* The enclosures of Enc2 are correct: signs of the partial derivatives and errors of
   the backward equations over all states of region 2, in exact arithmetic. *)
From Coq Require Import ZArith Reals List Bool Floats Lra Lia.
From Interval Require Import Tactic.
From Verif Require Import Num RealInst FloatInst FloatErr FloatUp Steps RSums Taylor TaylorSum TaylorSub Reg2 Reg2Back SpecReal SatInv SatNode Enc1 Enc2 Bound1.
Import ListNotations.
Open Scope R_scope.

(* the states of region 2 in the variables of the boxes; the boundaries may be exceeded by
   1 mPa (1e-9 MPa), since the code uses rounded numbers for them *)
Definition yT (y : R) : R := 540 / (y + 1 / 2).
Definition reg2xy (x y : R) : Prop :=
  0 < x /\ 273.15 <= yT y <= 1073.15 /\
  (yT y <= 623.15 -> x <= if97_psat (yT y) + 1 / 1000000000) /\
  (623.15 < yT y <= 863.15 -> x <= if97_b23 (yT y) + 1 / 1000000000).

(* ---- boxes without states ---- *)
Lemma tup4_ok yn yd y : (0 <= yn)%Z -> (0 < yd)%Z -> IZR yn / IZR yd <= y -> yT y <= IZR (tup4 yn yd) / 10000.
Proof.
  intros Hn Hd Hy. set (t := tup4 yn yd).
  assert (H : (10800000 * yd <= t * (2 * yn + yd))%Z).
  { unfold t, tup4. pose proof (Z.mul_div_le (10800000 * yd) (2 * yn + yd) ltac:(lia)). pose proof (Z.mod_pos_bound (10800000 * yd) (2 * yn + yd) ltac:(lia)).
    rewrite (Z.div_mod (10800000 * yd) (2 * yn + yd)) at 1 by lia. lia. }
  apply IZR_le in H, Hn. apply IZR_lt in Hd. rewrite !mult_IZR, !plus_IZR, !mult_IZR in H.
  set (N := IZR yn) in *. set (D := IZR yd) in *. set (Z := IZR t) in *. assert (0 <= N / D) by (apply Rmult_le_pos; [exact Hn|left; apply Rinv_0_lt_compat; exact Hd]).
  apply Rle_trans with (540 / (N / D + 1 / 2)).
  { unfold yT. apply Rmult_le_compat_l; [lra|]. apply Rinv_le_contravar; lra. }
  replace (540 / (N / D + 1 / 2)) with (1080 * D / (2 * N + D)) by (field; split; lra).
  apply Rmult_le_reg_r with (2 * N + D); [lra|]. unfold Rdiv. rewrite Rmult_assoc, Rinv_l by lra. lra.
Qed.
Lemma q4_ok xn xd : (0 < xd)%Z -> (0 < q4 xn xd)%Z -> (IZR (q4 xn xd) / 1000000000) ^ 4 + 2 / 1000000000 <= IZR xn / IZR xd.
Proof.
  intros Hd Hb. unfold q4 in *. set (z := ((xn * 1000000000000000000000000000000000000 - 2000000000000000000000000000 * xd) / xd)%Z) in *.
  set (r := Z.sqrt z) in *. set (b := Z.sqrt r) in *.
  assert (Hr : (0 <= r)%Z) by apply Z.sqrt_nonneg.
  assert (Hb2 : (b * b <= r)%Z) by apply (Z.sqrt_spec r Hr).
  assert (Hz : (0 <= z)%Z). { destruct (Z.le_gt_cases 0 z) as [L|L]; [exact L|]. assert (r = 0)%Z by (apply Z.sqrt_neg; lia). nia. }
  assert (Hr2 : (r * r <= z)%Z) by apply (Z.sqrt_spec z Hz).
  assert (H : (b * b * (b * b) * xd <= xn * 1000000000000000000000000000000000000 - 2000000000000000000000000000 * xd)%Z).
  { assert (b * b * (b * b) <= z)%Z by nia. pose proof (Z.mul_div_le (xn * 1000000000000000000000000000000000000 - 2000000000000000000000000000 * xd) xd Hd) as M. fold z in M. nia. }
  apply IZR_le in H. apply IZR_lt in Hd. rewrite minus_IZR, !mult_IZR in H.
  apply Rmult_le_reg_r with (IZR xd); [exact Hd|]. unfold Rdiv at 3. rewrite Rmult_assoc, Rinv_l by lra.
  replace (((IZR b / 1000000000) ^ 4 + 2 / 1000000000) * IZR xd) with ((IZR b * IZR b * (IZR b * IZR b) * IZR xd + 2000000000000000000000000000 * IZR xd) / 1000000000000000000000000000000000000) by field.
  lra.
Qed.
Lemma b23_incr a b : 572.6 <= a -> a <= b -> if97_b23 a <= if97_b23 b.
Proof.
  intros H1 H2. unfold if97_b23. assert (0 <= (b - a) * (0.0010192970039326 * (a + b) - 1.1671859879975)).
  { apply Rmult_le_pos; [lra|]. lra. }
  lra.
Qed.
Lemma b23_623 : if97_psat 623.15 < if97_b23 623.15.
Proof. unfold if97_psat, if97_b23. cbv zeta. interval with (i_prec 90). Qed.
Lemma b23z_ok t xn xd : (0 < xd)%Z -> b23z t xn xd = true -> if97_b23 (IZR t / 10000) + 2 / 1000000000 <= IZR xn / IZR xd.
Proof.
  intros Hd H. apply Z.leb_le in H. apply IZR_le in H. apply IZR_lt in Hd. repeat rewrite ?mult_IZR, ?plus_IZR, ?minus_IZR in H.
  apply Rmult_le_reg_r with (IZR xd); [exact Hd|]. unfold Rdiv at 3. rewrite Rmult_assoc, Rinv_l by lra.
  unfold if97_b23. set (T := IZR t) in *. set (D := IZR xd) in *.
  replace ((348.05185628969 + -1.1671859879975 * (T / 10000) + 0.0010192970039326 * (T / 10000) ^ 2 + 2 / 1000000000) * D) with
    ((34805185629169 * 10000000000000 - 11671859879975 * T * 10000000 + 10192970039326 * T * T) * D / 1000000000000000000000000).
  - lra.
  - unfold Q2R; cbn [QArith_base.Qnum QArith_base.Qden]. field.
Qed.
Lemma outz_ok xn xd yn yd x y : (0 < xd)%Z -> (0 <= yn)%Z -> (0 < yd)%Z -> outz xn xd yn yd = true ->
  IZR xn / IZR xd <= x -> IZR yn / IZR yd <= y -> ~ reg2xy x y.
Proof.
  intros Hd Hn Hy H Lx Ly (Px & HT & R1 & R2). unfold outz in H. cbv zeta in H. pose proof (tup4_ok yn yd y Hn Hy Ly) as Lt.
  set (t := tup4 yn yd) in *. destruct (Z.leb_spec t 6231500) as [L|L].
  - apply IZR_le in L. pose proof (zle_ok _ _ H) as [B1 B2]. unfold zle in H. rewrite !andb_true_iff in H. destruct H as (((H1 & _) & _) & _). apply Z.ltb_lt in H1.
    pose proof (q4_ok xn xd Hd H1) as Q. specialize (R1 ltac:(lra)).
    assert (if97_psat (yT y) <= if97_psat (IZR t / 10000)). { destruct (Req_dec (yT y) (IZR t / 10000)) as [->|E]; [lra|]. left. apply psat_mono; lra. }
    lra.
  - apply andb_true_iff in H as [H1 H2]. apply Z.leb_le in H1. apply IZR_le in H1. apply IZR_lt in L. pose proof (b23z_ok _ _ _ Hd H2) as Q.
    destruct (Rle_lt_dec (yT y) 623.15) as [C|C].
    + specialize (R1 C). assert (if97_psat (yT y) <= if97_psat 623.15). { destruct (Req_dec (yT y) 623.15) as [->|E]; [lra|]. left. apply psat_mono; lra. }
      assert (if97_b23 623.15 <= if97_b23 (IZR t / 10000)) by (apply b23_incr; lra). pose proof b23_623. lra.
    + specialize (R2 ltac:(lra)). assert (if97_b23 (yT y) <= if97_b23 (IZR t / 10000)) by (apply b23_incr; lra). lra.
Qed.
Lemma boxnn_ok x0 x1 y0 y1 : boxnn x0 x1 y0 y1 = true -> 0 <= val x0 /\ val x0 < val x1 /\ 0 < val y0 /\ val y0 < val y1.
Proof.
  intros H. apply andb_true_iff in H as [H H3]. apply andb_true_iff in H as [H1 H2]. destruct (bpos_ok _ _ H3) as (_ & _ & A & B).
  destruct (between_ok _ _ H2) as (F1 & F2 & L). split; [|auto]. rewrite <- zero_val. apply leb_inv; [exact zero_fin|exact F1|exact H1].
Qed.
Lemma flq_nn f a b : flq f = Some (a, b) -> 0 <= val f -> (0 <= a)%Z.
Proof.
  intros E H. destruct (flq_ok _ _ _ E) as [P V]. rewrite V in H. apply le_IZR. apply IZR_lt in P.
  replace (IZR a) with (IZR a / IZR b * IZR b) by (field; lra). apply Rmult_le_pos; lra.
Qed.
Lemma out2x_ok x0 x1 y0 y1 x y : out2x x0 x1 y0 y1 = true -> val x0 <= x -> val y0 <= y -> ~ reg2xy x y.
Proof.
  intros H Lx Ly. apply andb_true_iff in H as [B H]. destruct (boxnn_ok _ _ _ _ B) as (B1 & B2 & B3 & B4).
  destruct (flq x0) as [[xn xd]|] eqn:E1; [|discriminate]. destruct (flq y0) as [[yn yd]|] eqn:E2; [|discriminate].
  destruct (flq_ok _ _ _ E1) as [Px Vx]. destruct (flq_ok _ _ _ E2) as [Py Vy]. rewrite Vx in Lx. rewrite Vy in Ly.
  apply (outz_ok xn xd yn yd); try assumption. apply (flq_nn _ _ _ E2). lra.
Qed.
Lemma out2q_ok x0 x1 y0 y1 q y : out2q x0 x1 y0 y1 = true -> val x0 <= q -> val y0 <= y -> ~ reg2xy (q * q * (q * q)) y.
Proof.
  intros H Lx Ly. apply andb_true_iff in H as [B H]. destruct (boxnn_ok _ _ _ _ B) as (B1 & B2 & B3 & B4).
  destruct (flq x0) as [[xn xd]|] eqn:E1; [|discriminate]. destruct (flq y0) as [[yn yd]|] eqn:E2; [|discriminate].
  destruct (flq_ok _ _ _ E1) as [Px Vx]. destruct (flq_ok _ _ _ E2) as [Py Vy]. rewrite Vy in Ly.
  assert (Q1 : (0 <= yn)%Z) by (apply (flq_nn _ _ _ E2); lra). assert (Q2 : (0 < xd * xd * (xd * xd))%Z) by nia.
  apply (outz_ok _ _ _ _ _ _ Q2 Q1 Py H); [|exact Ly].
  assert (A : val x0 * val x0 <= q * q) by (apply Rmult_le_compat; lra).
  assert (A2 : val x0 * val x0 * (val x0 * val x0) <= q * q * (q * q)) by (apply Rmult_le_compat; try assumption; apply Rmult_le_pos; lra).
  rewrite !mult_IZR. apply IZR_lt in Px. rewrite Vx in A2.
  match goal with |- ?a <= _ => replace a with (IZR xn / IZR xd * (IZR xn / IZR xd) * (IZR xn / IZR xd * (IZR xn / IZR xd))) by (field; lra) end. exact A2.
Qed.
Lemma ox_ok x0 x1 y0 y1 x y : ox x0 x1 y0 y1 = true -> val x0 <= x <= val x1 -> val y0 <= y <= val y1 -> ~ reg2xy x y.
Proof. unfold ox. destruct (maybe _ _); [|discriminate]. intros H A B. apply (out2x_ok _ _ _ _ _ _ H); lra. Qed.
Lemma oq_ok x0 x1 y0 y1 q y : oq x0 x1 y0 y1 = true -> val x0 <= q <= val x1 -> val y0 <= y <= val y1 -> ~ reg2xy (q * q * (q * q)) y.
Proof. unfold oq. destruct (maybe _ _); [|discriminate]. intros H A B. apply (out2q_ok _ _ _ _ _ _ H); lra. Qed.

(* ---- tables ---- *)
Lemma pow_s1 x i : x <> 0 -> powerRZ x i = x * powerRZ x (i - 1).
Proof. intros H. replace i with (1 + (i - 1))%Z at 1 by lia. rewrite powerRZ_add by exact H. rewrite powerRZ_1. reflexivity. Qed.
Lemma pow_s2 x i : x <> 0 -> powerRZ x i = x * x * powerRZ x (i - 2).
Proof. intros H. rewrite (pow_s1 x i H), (pow_s1 x (i - 1) H). replace (i - 1 - 1)%Z with (i - 2)%Z by lia. ring. Qed.
Lemma xdD_cons i j d t : map rrow (xdD ((i, j, d) :: t)) = (i, j, R_of_dec (zdec i d)) :: map rrow (xdD t).
Proof. reflexivity. Qed.
Lemma rrow_cons i j d t : map rrow ((i, j, d) :: t) = (i, j, R_of_dec d) :: map rrow t.
Proof. reflexivity. Qed.
Lemma xdD_ok t x y : x <> 0 -> P (map rrow (xdD t)) x y = x * Px (map rrow t) x y.
Proof.
  intros Hx. unfold P, Px. induction t as [|[[i j] d] t IH]; [cbn; ring|]. rewrite xdD_cons, rrow_cons, !tsum_cons, IH. cbn [fst snd].
  rewrite zdec_ok. rewrite (pow_s1 x i Hx). ring.
Qed.
Lemma xdD_y t x y : x <> 0 -> P (map rrow (dyD (xdD t))) x y = x * Pxy (map rrow t) x y.
Proof.
  intros Hx. rewrite dyD_ok. unfold Py, Pxy. induction t as [|[[i j] d] t IH]; [cbn; ring|]. rewrite xdD_cons, rrow_cons, !tsum_cons, IH. cbn [fst snd].
  rewrite zdec_ok. rewrite (pow_s1 x i Hx). ring.
Qed.
Lemma xxdD_cons i j d t : xxdD ((i, j, d) :: t) = (if Z.eqb i 1 then [] else [(i, j, zdec (i * (i - 1)) d)]) ++ xxdD t.
Proof. reflexivity. Qed.
Lemma xxdD_ok t x y : x <> 0 -> P (map rrow (xxdD t)) x y = x * x * Pxx (map rrow t) x y.
Proof.
  intros Hx. unfold P, Pxx. induction t as [|[[i j] d] t IH]; [cbn; ring|]. rewrite xxdD_cons, map_app. destruct (Z.eqb_spec i 1) as [->|Hi]; cbn [app map]; rewrite !tsum_cons, IH; unfold rrow; cbn [fst snd].
  - change (IZR (1 - 1)) with 0. ring.
  - rewrite zdec_ok, mult_IZR. rewrite (pow_s2 x i Hx). ring.
Qed.

Opaque tmul tlin tadd tsub tinv chain gsum varu varv look inner tln.
Notation Tb2 := (map rrow tab2).
Notation Ti2 := (map rrow tid2).
(* the values behind the enclosures *)
Definition vH (x y : R) : R := Py Ti2 1 (y + 1 / 2) + Py Tb2 x y.
Definition vS (x y : R) : R := (y + 1 / 2) * vH x y - (P Ti2 1 (y + 1 / 2) + P Tb2 x y) - ln x.
Definition vZ (x y : R) : R := 1 + x * Px Tb2 x y.
Definition vK (x y : R) : R := 1 - x * x * Pxx Tb2 x y.
Definition vC (x y : R) : R := Pyy Ti2 1 (y + 1 / 2) + Pyy Tb2 x y.
Definition vD (x y : R) : R := let t := y + 1 / 2 in let d := vZ x y - t * (x * Pxy Tb2 x y) in t * t * vC x y * vK x y + d * d.

Section Enc.
Variables (u v : R).
Hypothesis Hu : Rabs u <= 1.
Hypothesis Hv : Rabs v <= 1.
Notation ok := (ok u v).
Variable k : nat.
Lemma bp_ok2 l X z : chn l = true -> ok X z -> pwok u v z (bp k l X).
Proof. intros H1 H2. unfold bp. apply (chain_nn u v Hu Hv k z l H1). apply pwok_base. exact H2. Qed.
Lemma bpi_ok l X z : z <> 0 -> ok X z -> pwok u v z (bpi k l X).
Proof.
  intros H1 H2. unfold bpi. apply (chain_ok u v Hu Hv k z l H1). apply pwok_inv; [|apply pwok_base; exact H2].
  exact (ok_inv u v Hu Hv k _ _ H2).
Qed.
Variables (X Y : tm) (x y : R).
Hypothesis OX : ok X x.
Hypothesis OY : ok Y y.
Hypothesis y_pos : 0 < y.
Lemma px2_ok : pwok u v x (px2 k X).
Proof. unfold px2. apply (chain_nn u v Hu Hv k x cx2); [vm_compute; reflexivity|]. apply pwok_base. exact OX. Qed.
Lemma py2_ok : pwok u v y (py2 k Y).
Proof. unfold py2. apply (chain_nn u v Hu Hv k y cy2); [vm_compute; reflexivity|]. apply pwok_base. exact OY. Qed.
Lemma tau2_ok : ok (tau2 k Y) (y + 1 / 2).
Proof.
  replace (y + 1 / 2) with (1 / 1 * y + 1 / 2 * 1) by field.
  apply (ok_lin2 u v Hu Hv); [exact OY|exact (ok_tone u v)|apply (ratok_ok 1 1)|apply (ratok_ok 1 2)]; vm_compute; reflexivity.
Qed.
Lemma pyi_ok : pwok u v (y + 1 / 2) (pyi k Y).
Proof. unfold pyi. apply bpi_ok; [lra|exact tau2_ok]. Qed.
Notation S t := (psum k (px2 k X) (py2 k Y) t).
Notation I t := (psum k [] (pyi k Y) t).
Lemma S_ok t : tok t = true -> ok (S (tfl t)) (P (map rrow t) x y).
Proof. intros H. exact (psum_ok u v Hu Hv k x y _ _ t H px2_ok py2_ok). Qed.
Lemma I_ok t : tok t = true -> ok (I (tfl t)) (P (map rrow t) 1 (y + 1 / 2)).
Proof. intros H. refine (psum_ok u v Hu Hv k 1 (y + 1 / 2) _ _ t H _ pyi_ok). constructor. Qed.
Lemma S2_0 : ok (S t2_0) (P Tb2 x y).
Proof. change t2_0 with (tfl tab2). apply S_ok. vm_compute. reflexivity. Qed.
Lemma S2_y : ok (S t2_y) (Py Tb2 x y).
Proof. rewrite <- dyD_ok. change t2_y with (tfl (dyD tab2)). apply S_ok. vm_compute. reflexivity. Qed.
Lemma S2_yy : ok (S t2_yy) (Pyy Tb2 x y).
Proof. rewrite <- dyy_ok. change t2_yy with (tfl (dyD (dyD tab2))). apply S_ok. vm_compute. reflexivity. Qed.
Lemma S2_x : x <> 0 -> ok (S t2_x) (x * Px Tb2 x y).
Proof. intros H. rewrite <- xdD_ok by exact H. change t2_x with (tfl (xdD tab2)). apply S_ok. vm_compute. reflexivity. Qed.
Lemma S2_xx : x <> 0 -> ok (S t2_xx) (x * x * Pxx Tb2 x y).
Proof. intros H. rewrite <- xxdD_ok by exact H. change t2_xx with (tfl (xxdD tab2)). apply S_ok. vm_compute. reflexivity. Qed.
Lemma S2_xy : x <> 0 -> ok (S t2_xy) (x * Pxy Tb2 x y).
Proof. intros H. rewrite <- xdD_y by exact H. change t2_xy with (tfl (dyD (xdD tab2))). apply S_ok. vm_compute. reflexivity. Qed.
Lemma I2_0 : ok (I i2_0) (P Ti2 1 (y + 1 / 2)).
Proof. change i2_0 with (tfl tid2). apply I_ok. vm_compute. reflexivity. Qed.
Lemma I2_y : ok (I i2_y) (Py Ti2 1 (y + 1 / 2)).
Proof. rewrite <- dyD_ok. change i2_y with (tfl (dyD tid2)). apply I_ok. vm_compute. reflexivity. Qed.
Lemma I2_yy : ok (I i2_yy) (Pyy Ti2 1 (y + 1 / 2)).
Proof. rewrite <- dyy_ok. change i2_yy with (tfl (dyD (dyD tid2))). apply I_ok. vm_compute. reflexivity. Qed.

Lemma tZ_ok : x <> 0 -> ok (tZ k (px2 k X) (py2 k Y)) (vZ x y).
Proof. intros H. apply (ok_add u v Hu Hv); [exact (ok_tone u v)|exact (S2_x H)]. Qed.
Lemma tK_ok : x <> 0 -> ok (tK k (px2 k X) (py2 k Y)) (vK x y).
Proof. intros H. apply (ok_sub u v Hu Hv); [exact (ok_tone u v)|exact (S2_xx H)]. Qed.
Lemma tC_ok : ok (tC k (px2 k X) (py2 k Y) (pyi k Y)) (vC x y).
Proof. apply (ok_add u v Hu Hv); [exact I2_yy|exact S2_yy]. Qed.
Lemma tD_ok : x <> 0 -> ok (tD k Y (px2 k X) (py2 k Y) (pyi k Y)) (vD x y).
Proof.
  intros H. unfold tD, vD. cbv zeta. pose proof tau2_ok as T.
  assert (D : ok (tsub (tZ k (px2 k X) (py2 k Y)) (tmul k (tau2 k Y) (S t2_xy))) (vZ x y - (y + 1 / 2) * (x * Pxy Tb2 x y))).
  { apply (ok_sub u v Hu Hv); [exact (tZ_ok H)|]. apply (ok_mul u v Hu Hv); [exact T|exact (S2_xy H)]. }
  apply (ok_add u v Hu Hv); [|apply (ok_mul u v Hu Hv); exact D].
  apply (ok_mul u v Hu Hv); [|exact (tK_ok H)]. apply (ok_mul u v Hu Hv); [|exact tC_ok]. apply (ok_mul u v Hu Hv); exact T.
Qed.
Lemma hh_ok : ok (hh k (px2 k X) (py2 k Y) (pyi k Y)) (vH x y).
Proof. apply (ok_add u v Hu Hv); [exact I2_y|exact S2_y]. Qed.
Lemma ss_ok LX : ok LX (ln x) -> ok (ss k LX Y (px2 k X) (py2 k Y) (pyi k Y)) (vS x y).
Proof.
  intros HL. unfold ss, vS. apply (ok_sub u v Hu Hv); [|exact HL]. apply (ok_sub u v Hu Hv).
  - apply (ok_mul u v Hu Hv); [exact tau2_ok|exact hh_ok].
  - apply (ok_add u v Hu Hv); [exact I2_0|exact S2_0].
Qed.
Lemma T2_ok : ok (T2 k Y) (yT y).
Proof.
  unfold T2, yT, Rdiv at 1. apply (ok_mul u v Hu Hv).
  - pose proof (ok_cst u v 540%float) as O. replace (val 540%float) with 540 in O by (flv; lra). exact O.
  - exact (ok_inv u v Hu Hv k _ _ tau2_ok).
Qed.
Lemma lin_one f a b t z g c d : ok t z -> ratok a b f = true -> ratok c d g = true ->
  ok (tlin k [(f, t); (g, one)]) (IZR a / IZR (Zpos b) * z + IZR c / IZR (Zpos d)).
Proof.
  intros H1 H2 H3. replace (IZR c / IZR (Zpos d)) with (IZR c / IZR (Zpos d) * 1) by ring.
  apply (ok_lin2 u v Hu Hv); [exact H1|exact (ok_tone u v)|now apply ratok_ok|now apply ratok_ok].
Qed.

(* the gaps of T(p,h) *)
Variables (h : tm) (eh : R).
Hypothesis OH : ok h eh.
Lemma gap_pha_ok : ok (gap_pha k X Y h) (P (map rrow tpha) x (12461202 / 100000000 * eh + -21 / 10) - yT y).
Proof.
  unfold gap_pha. apply (ok_sub u v Hu Hv); [|exact T2_ok]. change fpha with (tfl tpha). apply (psum_ok u v Hu Hv k); [vm_compute; reflexivity|apply bp_ok2; [reflexivity|exact OX]|].
  apply bp_ok2; [reflexivity|]. apply lin_one; [exact OH|vm_compute; reflexivity|vm_compute; reflexivity].
Qed.
Lemma gap_phb_ok : ok (gap_phb k X Y h) (P (map rrow tphb) (1 / 1 * x + -2 / 1) (12461202 / 100000000 * eh + -26 / 10) - yT y).
Proof.
  unfold gap_phb. apply (ok_sub u v Hu Hv); [|exact T2_ok]. change fphb with (tfl tphb). apply (psum_ok u v Hu Hv k); [vm_compute; reflexivity|apply bp_ok2; [reflexivity|]|apply bp_ok2; [reflexivity|]];
  apply lin_one; first [assumption|vm_compute; reflexivity].
Qed.
Lemma gap_phc_ok : 0 <= x -> ok (gap_phc k X Y h) (P (map rrow tphc) (1 / 1 * x + 25 / 1) (12461202 / 100000000 * eh + -18 / 10) - yT y).
Proof.
  intros Px. unfold gap_phc. apply (ok_sub u v Hu Hv); [|exact T2_ok]. change fphc with (tfl tphc). apply (psum_ok u v Hu Hv k); [vm_compute; reflexivity|apply bpi_ok; [lra|]|apply bp_ok2; [reflexivity|]];
  apply lin_one; first [assumption|vm_compute; reflexivity].
Qed.
(* the gaps of T(p,s); h stands for s *)
Lemma gap_psa_ok : x <> 0 -> 461526 / 2000000 * eh + -2 / 1 <> 0 -> ok (gap_psa k X Y h) (P (map rrow tpsa) x (461526 / 2000000 * eh + -2 / 1) - yT y).
Proof.
  intros Px Ps. unfold gap_psa. apply (ok_sub u v Hu Hv); [|exact T2_ok]. change fpsa with (tfl tpsa). apply (psum_ok u v Hu Hv k); [vm_compute; reflexivity|apply bpi_ok; [exact Px|exact OX]|].
  apply bpi_ok; [exact Ps|]. apply lin_one; [exact OH|vm_compute; reflexivity|vm_compute; reflexivity].
Qed.
Lemma gap_psb_ok : x <> 0 -> ok (gap_psb k X Y h) (P (map rrow tpsb) x (-4615260 / 7853000 * eh + 10 / 1) - yT y).
Proof.
  intros Px. unfold gap_psb. apply (ok_sub u v Hu Hv); [|exact T2_ok]. change fpsb with (tfl tpsb). apply (psum_ok u v Hu Hv k); [vm_compute; reflexivity|apply bpi_ok; [exact Px|exact OX]|].
  apply bp_ok2; [reflexivity|]. apply lin_one; [exact OH|vm_compute; reflexivity|vm_compute; reflexivity].
Qed.
Lemma gap_psc_ok : x <> 0 -> ok (gap_psc k X Y h) (P (map rrow tpsc) x (-4615260 / 29251000 * eh + 2 / 1) - yT y).
Proof.
  intros Px. unfold gap_psc. apply (ok_sub u v Hu Hv); [|exact T2_ok]. change fpsc with (tfl tpsc). apply (psum_ok u v Hu Hv k); [vm_compute; reflexivity|apply bpi_ok; [exact Px|exact OX]|].
  apply bp_ok2; [reflexivity|]. apply lin_one; [exact OH|vm_compute; reflexivity|vm_compute; reflexivity].
Qed.
Lemma tsel_ok hd z : ok hd z -> ok (tsel k X hd) (x - 45257578905948 / 10000000000000 - 12809002730136 / 100000000000000000 * (z * z)).
Proof.
  intros H. replace (x - 45257578905948 / 10000000000000 - 12809002730136 / 100000000000000000 * (z * z)) with
    (1 / 1 * x + -45257578905948 / 10000000000000 * 1 + -12809002730136 / 100000000000000000 * (z * z)) by field.
  apply (ok_lin3 u v Hu Hv); [exact OX|exact (ok_tone u v)|apply (ok_mul u v Hu Hv); exact H|apply (ratok_ok 1 1)|apply (ratok_ok (-45257578905948) 10000000000000)|
    apply (ratok_ok (-12809002730136) 100000000000000000)]; vm_compute; reflexivity.
Qed.
End Enc.
