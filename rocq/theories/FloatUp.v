(* Facts about binary64 operations whose result is known to be finite, and two
   operations that round upwards: [addu] and [mulu] bound the exact sum and product of
   non-negative numbers from above. *)
From Coq Require Import ZArith Reals Bool Floats Lra Lia Psatz.
From Flocq Require Import Core.Core Relative Plus_error IEEE754.BinarySingleNaN IEEE754.PrimFloat.
From Verif Require Import Num RealInst FloatInst NanFacts FloatOrder FloatErr.
Open Scope R_scope.

Lemma fin_add x y : fin (x + y)%float -> fin x /\ fin y.
Proof.
  unfold fin. rewrite add_equiv. intros H.
  destruct (Prim2B x) as [|[]| |], (Prim2B y) as [|[]| |]; try discriminate H; split; reflexivity.
Qed.
Lemma fin_sub x y : fin (x - y)%float -> fin x /\ fin y.
Proof.
  unfold fin. rewrite sub_equiv. intros H.
  destruct (Prim2B x) as [|[]| |], (Prim2B y) as [|[]| |]; try discriminate H; split; reflexivity.
Qed.
Lemma fin_mul x y : fin (x * y)%float -> fin x /\ fin y.
Proof.
  unfold fin. rewrite mul_equiv. intros H.
  destruct (Prim2B x) as [|[]| |], (Prim2B y) as [|[]| |]; try discriminate H; split; reflexivity.
Qed.
Lemma fin_abs x : fin (abs x) <-> fin x.
Proof. unfold fin. rewrite abs_equiv. destruct (Prim2B x); split; intros; assumption || reflexivity. Qed.
Lemma fin_opp x : fin (- x)%float <-> fin x.
Proof. unfold fin. rewrite opp_equiv. destruct (Prim2B x); split; intros; assumption || reflexivity. Qed.

Lemma val_add x y : fin (x + y)%float -> val (x + y)%float = rnd (val x + val y).
Proof.
  intros H. destruct (fin_add _ _ H) as [Hx Hy]. unfold fin, val in *. rewrite add_equiv in *.
  pose proof (Bplus_correct prec emax Hprec Hmax mode_NE _ _ Hx Hy) as C.
  change (round radix2 (SpecFloat.fexp prec emax) (round_mode mode_NE)) with rnd in C.
  destruct (Rlt_bool _ _); [tauto|]. destruct C as [C _].
  destruct (Bplus mode_NE (Prim2B x) (Prim2B y)) as [| | |]; try discriminate H; discriminate C.
Qed.
Lemma val_sub x y : fin (x - y)%float -> val (x - y)%float = rnd (val x - val y).
Proof.
  intros H. destruct (fin_sub _ _ H) as [Hx Hy]. unfold fin, val in *. rewrite sub_equiv in *.
  pose proof (Bminus_correct prec emax Hprec Hmax mode_NE _ _ Hx Hy) as C.
  change (round radix2 (SpecFloat.fexp prec emax) (round_mode mode_NE)) with rnd in C.
  destruct (Rlt_bool _ _); [tauto|]. destruct C as [C _].
  destruct (Bminus mode_NE (Prim2B x) (Prim2B y)) as [| | |]; try discriminate H; discriminate C.
Qed.
Lemma val_mul x y : fin (x * y)%float -> val (x * y)%float = rnd (val x * val y).
Proof.
  intros H. destruct (fin_mul _ _ H) as [Hx Hy]. unfold fin, val in *. rewrite mul_equiv in *.
  pose proof (Bmult_correct prec emax Hprec Hmax mode_NE (Prim2B x) (Prim2B y)) as C.
  change (round radix2 (SpecFloat.fexp prec emax) (round_mode mode_NE)) with rnd in C.
  destruct (Rlt_bool _ _); [tauto|].
  destruct (Bmult mode_NE (Prim2B x) (Prim2B y)) as [| | |]; try discriminate H; discriminate C.
Qed.
Lemma val_abs x : val (abs x) = Rabs (val x).
Proof. unfold val. rewrite abs_equiv. apply B2R_Babs. Qed.
Lemma val_opp x : val (- x)%float = - val x.
Proof. unfold val. rewrite opp_equiv. apply B2R_Bopp. Qed.

Local Instance prec_pos : Prec_gt_0 prec := eq_refl.
(* sums of two binary64 numbers do not underflow *)
Lemma add_err x y : fin (x + y)%float ->
  Rabs (val (x + y)%float - (val x + val y)) <= / 9007199254740992 * Rabs (val x + val y).
Proof.
  intros H. rewrite (val_add _ _ H).
  destruct (Req_dec (val x + val y) 0) as [E|E].
  { rewrite E, round_0 by typeclasses eauto. rewrite Rminus_0_r, Rabs_R0. lra. }
  destruct (FLT_plus_error_N_ex radix2 (3 - emax - prec) prec (fun x => negb (Z.even x)) (val x) (val y)) as (d & Hd & Hr).
  1,2: apply generic_format_B2R.
  rewrite Hr. replace ((val x + val y) * (1 + d) - (val x + val y)) with (d * (val x + val y)) by ring.
  rewrite Rabs_mult. apply Rmult_le_compat_r; [apply Rabs_pos|].
  eapply Rle_trans; [exact Hd|]. 
  assert (Hu : u_ro radix2 prec = / 9007199254740992).
  { unfold u_ro. cbn. lra. }
  rewrite Hu. assert (0 < 1 + / 9007199254740992) by lra.
  apply Rmult_le_reg_r with (1 + / 9007199254740992); [assumption|].
  unfold Rdiv. rewrite Rmult_assoc, Rinv_l by lra. lra.
Qed.
Lemma sub_err x y : fin (x - y)%float ->
  Rabs (val (x - y)%float - (val x - val y)) <= / 9007199254740992 * Rabs (val x - val y).
Proof.
  intros H. destruct (fin_sub _ _ H) as [_ Hy]. destruct (fopp _ Hy) as [Fo Vo].
  assert (E : val (x - y)%float = val (x + - y)%float /\ fin (x + - y)%float).
  { unfold fin, val in *. rewrite add_equiv, opp_equiv, sub_equiv in *.
    destruct (Prim2B x) as [|[]| |], (Prim2B y) as [|[]| |]; try discriminate H; try (split; reflexivity);
      repeat match goal with b : bool |- _ => destruct b end; try (split; [reflexivity|exact H]); (split; reflexivity). }
  destruct E as [E1 E2]. rewrite E1. pose proof (add_err _ _ E2) as A. rewrite Vo in A. exact A.
Qed.
Lemma mul_err x y : fin (x * y)%float ->
  Rabs (val (x * y)%float - val x * val y) <= / 9007199254740992 * Rabs (val x * val y) + bpow radix2 (-1075).
Proof.
  intros H. rewrite (val_mul _ _ H). destruct (rnd_err (val x * val y)) as (d & e & Hd & He & E). rewrite E.
  replace (val x * val y * (1 + d) + e - val x * val y) with (d * (val x * val y) + e) by ring.
  eapply Rle_trans; [apply Rabs_triang|]. rewrite Rabs_mult.
  apply Rplus_le_compat; [|exact He]. apply Rmult_le_compat_r; [apply Rabs_pos|exact Hd].
Qed.

Lemma pow_tiny : 0 < bpow radix2 (-1075) <= / 4 * bpow radix2 (-1000).
Proof.
  split; [apply bpow_gt_0|]. apply Rle_trans with (bpow radix2 (-2 + -1000)).
  - apply bpow_le. lia.
  - rewrite bpow_plus. apply Rmult_le_compat_r; [apply bpow_ge_0|]. cbn. lra.
Qed.

(* 1 + 2^-50 and 2^-1000 *)
Definition kup : float := 0x1.0000000000004p0%float.
Definition tup : float := 0x1p-1000%float.
Lemma kup_fin : fin kup. Proof. eapply fin_SF. vm_compute. reflexivity. Qed.
Lemma tup_fin : fin tup. Proof. eapply fin_SF. vm_compute. reflexivity. Qed.
Lemma kup_val : val kup = 1 + / 1125899906842624.
Proof.
  erewrite val_SF by (vm_compute; reflexivity). cbv iota. change 2 with (IZR radix2). rewrite <- bpow_powerRZ.
  change (bpow radix2 (-52)) with (/ IZR 4503599627370496). lra.
Qed.
Lemma tup_val : val tup = bpow radix2 (-1000).
Proof.
  erewrite val_SF by (vm_compute; reflexivity). cbv iota. change 2 with (IZR radix2). rewrite <- bpow_powerRZ.
  change 4503599627370496%Z with (radix2 ^ 52)%Z. rewrite IZR_Zpower by lia. rewrite <- bpow_plus. reflexivity.
Qed.

Definition addu (a b : float) : float := ((a + b) * kup + tup)%float.
Definition mulu (a b : float) : float := ((a * b) * kup + tup)%float.

Lemma up_core z c : fin (z * kup + tup)%float -> 0 <= c ->
  (1 - / 9007199254740992) * c - bpow radix2 (-1075) <= val z -> c <= val (z * kup + tup)%float.
Proof.
  intros F Hc Hz. destruct (fin_add _ _ F) as [F1 _].
  pose proof (add_err _ _ F) as E1. pose proof (mul_err _ _ F1) as E2. rewrite kup_val, tup_val in *.
  pose proof pow_tiny as [Ht1 Ht2]. set (t := bpow radix2 (-1000)) in *. set (s := bpow radix2 (-1075)) in *.
  set (m := val (z * kup)%float) in *. set (r := val (z * kup + tup)%float) in *. set (Z0 := val z) in *.
  assert (Hm : Z0 * (1 + / 1125899906842624) - m <= / 9007199254740992 * Rabs (Z0 * (1 + / 1125899906842624)) + s).
  { rewrite Rabs_minus_sym in E2. eapply Rle_trans; [apply Rle_abs|exact E2]. }
  assert (Hr : (m + t) - r <= / 9007199254740992 * Rabs (m + t)).
  { rewrite Rabs_minus_sym in E1. eapply Rle_trans; [apply Rle_abs|exact E1]. }
  clear E1 E2. clearbody t s m r Z0.
  destruct (Rle_lt_dec 0 Z0) as [P|P].
  - rewrite (Rabs_pos_eq (Z0 * _)) in Hm by (apply Rmult_le_pos; lra).
    assert (0 <= m + t) by lra. rewrite Rabs_pos_eq in Hr by lra. lra.
  - (* then c is below the smallest normal number *)
    rewrite Rabs_left in Hm by lra.
    assert (0 <= m + t) by lra. rewrite Rabs_pos_eq in Hr by lra. lra.
Qed.
Lemma addu_fin a b : fin (addu a b) -> fin a /\ fin b.
Proof. intros F. destruct (fin_add _ _ F) as [F1 _]. destruct (fin_mul _ _ F1) as [F2 _]. exact (fin_add _ _ F2). Qed.
Lemma mulu_fin a b : fin (mulu a b) -> fin a /\ fin b.
Proof. intros F. destruct (fin_add _ _ F) as [F1 _]. destruct (fin_mul _ _ F1) as [F2 _]. exact (fin_mul _ _ F2). Qed.
Lemma addu_le a b : fin (addu a b) -> 0 <= val a -> 0 <= val b -> val a + val b <= val (addu a b).
Proof.
  intros F Ha Hb. apply up_core; [exact F|lra|]. destruct (fin_add _ _ F) as [F1 _]. destruct (fin_mul _ _ F1) as [F2 _].
  pose proof (add_err _ _ F2) as E. rewrite (Rabs_pos_eq (_ + _)) in E by lra. rewrite Rabs_minus_sym in E.
  pose proof (Rle_trans _ _ _ (Rle_abs _) E). pose proof pow_tiny. lra.
Qed.
Lemma mulu_le a b : fin (mulu a b) -> 0 <= val a -> 0 <= val b -> val a * val b <= val (mulu a b).
Proof.
  intros F Ha Hb. pose proof (Rmult_le_pos _ _ Ha Hb) as P. apply up_core; [exact F|exact P|].
  destruct (fin_add _ _ F) as [F1 _]. destruct (fin_mul _ _ F1) as [F2 _].
  pose proof (mul_err _ _ F2) as E. rewrite (Rabs_pos_eq (_ * _)) in E by lra. rewrite Rabs_minus_sym in E.
  pose proof (Rle_trans _ _ _ (Rle_abs _) E). lra.
Qed.
Lemma fin_dec x : {fin x} + {~ fin x}.
Proof. unfold fin. destruct (is_finite (Prim2B x)); [left; reflexivity|right; discriminate]. Qed.
Lemma val_nonfin x : ~ fin x -> val x = 0.
Proof. unfold fin, val. destruct (Prim2B x); intros H; try reflexivity. exfalso. apply H. reflexivity. Qed.
