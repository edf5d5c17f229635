(* Rounding-error facts for the kernel's binary64 operations, from Flocq: every
   operation on finite operands whose exact result is far from overflow is finite and
   equals the exact result times (1 + d) plus e, |d| <= 2^-53, |e| <= 2^-1075. *)
From Coq Require Import ZArith Reals Bool Floats Lra Lia Psatz.
From Flocq Require Import Core.Core Relative IEEE754.BinarySingleNaN IEEE754.PrimFloat.
From Verif Require Import Num RealInst FloatInst NanFacts FloatOrder.
Notation float := PrimFloat.float.
Notation prec := FloatOps.prec.
Notation emax := FloatOps.emax.
Open Scope R_scope.

Definition fin (x : float) : Prop := is_finite (Prim2B x) = true.
Definition val (x : float) : R := B2R (Prim2B x).

Lemma fin_ordered x : fin x -> ordered x.
Proof. unfold fin, ordered. rewrite is_nan_equiv. destruct (Prim2B x); try discriminate; reflexivity. Qed.
Lemma fin_emb x : fin x -> emb x = val x.
Proof. unfold fin, emb, val. destruct (Prim2B x) as [|[]| |]; try discriminate; reflexivity. Qed.

Notation rnd := (round radix2 (FLT_exp (3 - emax - prec) prec) ZnearestE).

Lemma rnd_err z : exists d e, Rabs d <= /9007199254740992 /\ Rabs e <= bpow radix2 (-1075) /\ rnd z = z * (1 + d) + e.
Proof.
  destruct (error_N_FLT radix2 (3 - emax - prec) prec eq_refl (fun x => negb (Z.even x)) z) as (d & e & Hd & He & _ & H).
  exists d, e. split; [|split].
  - eapply Rle_trans; [exact Hd|]. change (bpow radix2 (- prec + 1)) with (/ IZR (2^52)). 
    change (2^52)%Z with 4503599627370496%Z. lra.
  - eapply Rle_trans; [exact He|]. change (3 - emax - prec)%Z with (-1074)%Z.
    replace (bpow radix2 (-1074)) with (2 * bpow radix2 (-1075)); [|change (-1074)%Z with (1 + -1075)%Z; rewrite bpow_plus; cbn [bpow radix_val radix2 Z.pow_pos Pos.iter Z.mul Pos.mul]; lra]. lra.
  - exact H.
Qed.

Local Instance prec_pos : Prec_gt_0 prec := eq_refl.
Definition small (z : R) : Prop := Rabs z <= bpow radix2 1000.

Lemma rnd_small z : small z -> Rlt_bool (Rabs (rnd z)) (bpow radix2 emax) = true.
Proof.
  intros H. apply Rlt_bool_true. apply Rle_lt_trans with (bpow radix2 1000).
  - apply abs_round_le_generic; try typeclasses eauto.
    + apply generic_format_bpow. unfold FLT_exp. cbn. lia.
    + exact H.
  - apply bpow_lt. reflexivity.
Qed.

Lemma fadd x y : fin x -> fin y -> small (val x + val y) ->
  fin (x + y)%float /\ val (x + y)%float = rnd (val x + val y).
Proof.
  intros Hx Hy Hs. unfold fin, val in *. rewrite add_equiv.
  pose proof (Bplus_correct prec emax Hprec Hmax mode_NE _ _ Hx Hy) as H. change (round radix2 (SpecFloat.fexp prec emax) (round_mode mode_NE)) with rnd in H.
  rewrite (rnd_small _ Hs) in H. tauto.
Qed.
Lemma fsub x y : fin x -> fin y -> small (val x - val y) ->
  fin (x - y)%float /\ val (x - y)%float = rnd (val x - val y).
Proof.
  intros Hx Hy Hs. unfold fin, val in *. rewrite sub_equiv.
  pose proof (Bminus_correct prec emax Hprec Hmax mode_NE _ _ Hx Hy) as H. change (round radix2 (SpecFloat.fexp prec emax) (round_mode mode_NE)) with rnd in H.
  rewrite (rnd_small _ Hs) in H. tauto.
Qed.
Lemma fmul x y : fin x -> fin y -> small (val x * val y) ->
  fin (x * y)%float /\ val (x * y)%float = rnd (val x * val y).
Proof.
  intros Hx Hy Hs. unfold fin, val in *. rewrite mul_equiv.
  pose proof (Bmult_correct prec emax Hprec Hmax mode_NE (Prim2B x) (Prim2B y)) as H. change (round radix2 (SpecFloat.fexp prec emax) (round_mode mode_NE)) with rnd in H.
  rewrite (rnd_small _ Hs), Hx, Hy in H. tauto.
Qed.
Lemma fdiv x y : fin x -> fin y -> val y <> 0 -> small (val x / val y) ->
  fin (x / y)%float /\ val (x / y)%float = rnd (val x / val y).
Proof.
  intros Hx Hy H0 Hs. unfold fin, val in *. rewrite div_equiv.
  pose proof (Bdiv_correct prec emax Hprec Hmax mode_NE (Prim2B x) (Prim2B y) H0) as H. change (round radix2 (SpecFloat.fexp prec emax) (round_mode mode_NE)) with rnd in H.
  rewrite (rnd_small _ Hs), Hx in H. tauto.
Qed.
Lemma fopp x : fin x -> fin (- x)%float /\ val (- x)%float = - val x.
Proof. intros Hx. unfold fin, val in *. rewrite opp_equiv, is_finite_Bopp, B2R_Bopp. auto. Qed.
Lemma fabs x : fin x -> fin (abs x)%float /\ val (abs x)%float = Rabs (val x).
Proof. intros Hx. unfold fin, val in *. rewrite abs_equiv, is_finite_Babs, B2R_Babs. auto. Qed.
Lemma fsqrt x : fin x -> 0 <= val x -> fin (PrimFloat.sqrt x) /\ val (PrimFloat.sqrt x) = rnd (R_sqrt.sqrt (val x)).
Proof.
  intros Hx H0. unfold fin, val in *. rewrite sqrt_equiv.
  pose proof (Bsqrt_correct prec emax Hprec Hmax mode_NE (Prim2B x)) as (H & F & _). change (round radix2 (SpecFloat.fexp prec emax) (round_mode mode_NE)) with rnd in H.
  rewrite H, F. split; [|reflexivity]. revert Hx H0.
  destruct (Prim2B x) as [| | |s m e B]; try discriminate; [reflexivity|].
  destruct s; [|reflexivity]. cbn [B2R]. intros _ H0. exfalso.
  assert (F2R (Float radix2 (cond_Zopp true (Zpos m)) e) < 0); [|lra].
  apply F2R_lt_0. reflexivity.
Qed.

(* the value of a concrete float *)
Lemma fin_SF x s m e : Prim2SF x = S754_finite s m e -> fin x.
Proof.
  intros H. unfold fin. pose proof (B2SF_Prim2B x) as E. rewrite H in E.
  destruct (Prim2B x) as [|[]| |]; try discriminate. reflexivity.
Qed.
Lemma val_SF x s m e : Prim2SF x = S754_finite s m e ->
  val x = (if s then - IZR (Zpos m) else IZR (Zpos m)) * powerRZ 2 e.
Proof. intros H. rewrite <- (emb_SF _ _ _ _ H). symmetry. apply fin_emb. eapply fin_SF; eassumption. Qed.
Lemma fin_zero x s : Prim2SF x = S754_zero s -> fin x.
Proof.
  intros H. unfold fin. pose proof (B2SF_Prim2B x) as E. rewrite H in E.
  destruct (Prim2B x) as [|[]| |]; try discriminate. reflexivity.
Qed.
Lemma val_zero x s : Prim2SF x = S754_zero s -> val x = 0.
Proof. intros H. rewrite <- (emb_zero _ _ H). symmetry. apply fin_emb. eapply fin_zero; eassumption. Qed.

(* the same with explicit error terms, in a form the interval tactic can use *)
Definition ueps (d e : R) : Prop :=
  Rabs d <= /9007199254740992 /\ Rabs e <= /1606938044258990275541962092341162602522202993782792835301376.
Lemma eta_small : bpow radix2 (-1075) <= / 1606938044258990275541962092341162602522202993782792835301376.
Proof.
  apply Rle_trans with (bpow radix2 (-200)); [apply bpow_le; lia|].
  change (bpow radix2 (-200)) with (/ IZR (Z.pow_pos 2 200)).
  right. f_equal. 
Qed.
Lemma rnd_ueps z : exists d e, ueps d e /\ rnd z = z * (1 + d) + e.
Proof.
  destruct (rnd_err z) as (d & e & A & B & C). exists d, e. split; [|exact C].
  split; [exact A|]. eapply Rle_trans; [exact B|exact eta_small].
Qed.
Lemma small_le z c : Rabs z <= c -> c <= IZR (2^200) -> small z.
Proof.
  intros A B. unfold small. eapply Rle_trans; [exact A|]. eapply Rle_trans; [exact B|].
  change (IZR (2^200)) with (bpow radix2 200). apply bpow_le. lia.
Qed.
Lemma xadd x y : fin x -> fin y -> small (val x + val y) ->
  exists d e, ueps d e /\ fin (x + y)%float /\ val (x + y)%float = (val x + val y) * (1 + d) + e.
Proof. intros A B C. destruct (fadd x y A B C) as [F ->]. destruct (rnd_ueps (val x + val y)) as (d & e & D & E). exists d, e. auto. Qed.
Lemma xsub x y : fin x -> fin y -> small (val x - val y) ->
  exists d e, ueps d e /\ fin (x - y)%float /\ val (x - y)%float = (val x - val y) * (1 + d) + e.
Proof. intros A B C. destruct (fsub x y A B C) as [F ->]. destruct (rnd_ueps (val x - val y)) as (d & e & D & E). exists d, e. auto. Qed.
Lemma xmul x y : fin x -> fin y -> small (val x * val y) ->
  exists d e, ueps d e /\ fin (x * y)%float /\ val (x * y)%float = (val x * val y) * (1 + d) + e.
Proof. intros A B C. destruct (fmul x y A B C) as [F ->]. destruct (rnd_ueps (val x * val y)) as (d & e & D & E). exists d, e. auto. Qed.
Lemma xdiv x y : fin x -> fin y -> val y <> 0 -> small (val x / val y) ->
  exists d e, ueps d e /\ fin (x / y)%float /\ val (x / y)%float = (val x / val y) * (1 + d) + e.
Proof. intros A B Z C. destruct (fdiv x y A B Z C) as [F ->]. destruct (rnd_ueps (val x / val y)) as (d & e & D & E). exists d, e. auto. Qed.
Lemma xsqrt x : fin x -> 0 <= val x ->
  exists d e, ueps d e /\ fin (PrimFloat.sqrt x) /\ val (PrimFloat.sqrt x) = R_sqrt.sqrt (val x) * (1 + d) + e.
Proof. intros A B. destruct (fsqrt x A B) as [F ->]. destruct (rnd_ueps (R_sqrt.sqrt (val x))) as (d & e & D & E). exists d, e. auto. Qed.

Lemma ltb_val x y : fin x -> fin y -> PrimFloat.ltb x y = Rlt_b (val x) (val y).
Proof. intros A B. rewrite <- !fin_emb by assumption. apply emb_lt; apply fin_ordered; assumption. Qed.
Lemma leb_val x y : fin x -> fin y -> PrimFloat.leb x y = Rle_b (val x) (val y).
Proof. intros A B. rewrite <- !fin_emb by assumption. apply emb_le; apply fin_ordered; assumption. Qed.

(* a float between two finite floats is finite *)
Lemma fin_between x a b : fin a -> fin b -> PrimFloat.leb a x = true -> PrimFloat.leb x b = true -> fin x.
Proof.
  unfold fin. rewrite !leb_equiv. intros A B.
  destruct (Prim2B a) as [|[]| |sa ma ea Ba]; try discriminate;
  destruct (Prim2B b) as [|[]| |sb mb eb Bb]; try discriminate;
  destruct (Prim2B x) as [|[]| |sx mx ex Bx]; try reflexivity; cbn; try discriminate;
  try (destruct sa; discriminate); try (destruct sb; discriminate).
Qed.
