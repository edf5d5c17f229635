(* Binary64 comparisons of non-NaN values are comparisons of real numbers.
   [emb] sends a float to its real value and the infinities beyond every finite
   float. *)
From Coq Require Import ZArith Reals Bool Floats Lra Lia.
From Flocq Require Import Core.Core IEEE754.BinarySingleNaN IEEE754.PrimFloat.
From Verif Require Import Num RealInst FloatInst NanFacts.
Notation float := PrimFloat.float.
Notation prec := FloatOps.prec.
Notation emax := FloatOps.emax.
Open Scope R_scope.

Definition embB (f : binary_float prec emax) : R :=
  match f with
  | B754_infinity true => - bpow radix2 emax
  | B754_infinity false => bpow radix2 emax
  | _ => B2R f
  end.
Definition emb (x : float) : R := embB (Prim2B x).

Lemma embB_lt (f g : binary_float prec emax) :
  BinarySingleNaN.is_nan f = false -> BinarySingleNaN.is_nan g = false ->
  Bltb f g = Rlt_b (embB f) (embB g).
Proof.
  intros Hf Hg.
  assert (F : forall h : binary_float prec emax, is_finite h = true -> - bpow radix2 emax < B2R h < bpow radix2 emax).
  { intros h _. apply Raux.Rabs_lt_inv. apply abs_B2R_lt_emax. }
  assert (P : 0 < bpow radix2 emax) by apply bpow_gt_0.
  assert (FF : is_finite f = true -> is_finite g = true -> Bltb f g = Rlt_b (B2R f) (B2R g)).
  { intros A B. rewrite (Bltb_correct _ _ _ _ A B). unfold Rlt_b.
    destruct (Rlt_bool_spec (B2R f) (B2R g)), (Rlt_dec (B2R f) (B2R g)); try reflexivity; lra. }
  destruct f as [sf|[]| |sf mf ef Bf]; destruct g as [sg|[]| |sg mg eg Bg]; try discriminate;
  try (apply FF; reflexivity);
  cbn [embB]; unfold Rlt_b; 
  match goal with |- _ = (if ?d then _ else _) => destruct d as [H|H] end; try reflexivity; exfalso;
  try lra;
  try (revert H; match goal with |- context [B2R ?h] => pose proof (F h eq_refl); intros; lra end).
Qed.

Lemma Bleb_ltb (f g : binary_float prec emax) :
  BinarySingleNaN.is_nan f = false -> BinarySingleNaN.is_nan g = false ->
  Bleb f g = negb (Bltb g f).
Proof.
  intros Hf Hg.
  destruct f as [sf|[]| |sf mf ef Bf]; destruct g as [sg|[]| |sg mg eg Bg]; try discriminate; try reflexivity;
  rewrite Bleb_correct, Bltb_correct by reflexivity;
  match goal with |- Rle_bool ?a ?b = _ => destruct (Rle_bool_spec a b), (Rlt_bool_spec b a) end; try reflexivity; lra.
Qed.
Lemma Beqb_leb (f g : binary_float prec emax) :
  BinarySingleNaN.is_nan f = false -> BinarySingleNaN.is_nan g = false ->
  Beqb f g = Bleb f g && Bleb g f.
Proof.
  intros Hf Hg.
  destruct f as [sf|[]| |sf mf ef Bf]; destruct g as [sg|[]| |sg mg eg Bg]; try discriminate; try reflexivity;
  rewrite Beqb_correct, !Bleb_correct by reflexivity;
  match goal with |- Req_bool ?a ?b = _ => destruct (Req_bool_spec a b), (Rle_bool_spec a b), (Rle_bool_spec b a) end; try reflexivity; lra.
Qed.

Definition ordered (x : float) : Prop := PrimFloat.is_nan x = false.

Lemma ordered_B x : ordered x -> BinarySingleNaN.is_nan (Prim2B x) = false.
Proof. unfold ordered. rewrite is_nan_equiv. auto. Qed.

Lemma emb_lt x y : ordered x -> ordered y -> PrimFloat.ltb x y = Rlt_b (emb x) (emb y).
Proof. intros A B. rewrite ltb_equiv. apply embB_lt; apply ordered_B; assumption. Qed.
Lemma emb_le x y : ordered x -> ordered y -> PrimFloat.leb x y = Rle_b (emb x) (emb y).
Proof.
  intros A B. rewrite leb_equiv, Bleb_ltb, embB_lt by (apply ordered_B; assumption).
  fold (emb x) (emb y). unfold Rlt_b, Rle_b.
  destruct (Rlt_dec (emb y) (emb x)), (Rle_dec (emb x) (emb y)); try reflexivity; exfalso; lra.
Qed.
Lemma emb_eq x y : ordered x -> ordered y -> PrimFloat.eqb x y = Req_b (emb x) (emb y).
Proof.
  intros A B. rewrite eqb_equiv, Beqb_leb, !Bleb_ltb, !embB_lt by (apply ordered_B; assumption).
  fold (emb x) (emb y). unfold Rlt_b, Req_b.
  destruct (Rlt_dec (emb y) (emb x)), (Rlt_dec (emb x) (emb y)), (Req_EM_T (emb x) (emb y)); try reflexivity; exfalso; lra.
Qed.

(* the value of a concrete float *)
Lemma emb_SF x s m e : Prim2SF x = S754_finite s m e ->
  emb x = (if s then - IZR (Zpos m) else IZR (Zpos m)) * powerRZ 2 e.
Proof.
  intros H. unfold emb. pose proof (B2SF_Prim2B x) as E. rewrite H in E.
  destruct (Prim2B x) as [|[]| |s' m' e' B]; try discriminate. cbn in E. injection E as -> -> ->.
  cbn [embB B2R]. unfold F2R. cbn [Fnum Fexp]. rewrite bpow_powerRZ. cbn [radix_val radix2].
  destruct s; cbn [cond_Zopp]; [rewrite opp_IZR|]; reflexivity.
Qed.
Lemma ordered_SF x s m e : Prim2SF x = S754_finite s m e -> ordered x.
Proof.
  intros H. unfold ordered. destruct (PrimFloat.is_nan x) eqn:E; [|reflexivity].
  apply nan_sf in E. congruence.
Qed.
Lemma emb_zero x s : Prim2SF x = S754_zero s -> emb x = 0.
Proof.
  intros H. unfold emb. pose proof (B2SF_Prim2B x) as E. rewrite H in E.
  destruct (Prim2B x) as [|[]| |s' m' e' B]; try discriminate. reflexivity.
Qed.
Lemma ordered_zero x s : Prim2SF x = S754_zero s -> ordered x.
Proof.
  intros H. unfold ordered. destruct (PrimFloat.is_nan x) eqn:E; [|reflexivity].
  apply nan_sf in E. congruence.
Qed.
