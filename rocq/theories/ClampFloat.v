(* The clamped answers in binary64 *)
From Coq Require Import ZArith List Bool Floats Reals Lra Lia.
From Flocq Require Import Core.
From Flocq Require IEEE754.PrimFloat.
From Interval Require Import Tactic.
From Verif Require Import Num Types Region Algo Constant R4Sat Boundaries Reg1 Reg2 Reg5 Reg1Back Reg2Back Reg5Back Api Spec FloatInst RealInst RegionMap FloatOrder FloatErr SatFloat LoopFacts SpecSolver Bisect TermFloat Clamp SpecInverse.
Import ListNotations.

Lemma ltb_leb x y : ordered x -> ordered y -> PrimFloat.ltb x y = false -> PrimFloat.leb y x = true.
Proof. intros A B H. rewrite emb_lt in H by assumption. rewrite emb_le by assumption. apply Rlt_b_inv_f in H. apply Rle_b_true. exact H. Qed.
Lemma leb_refl_o x : ordered x -> PrimFloat.leb x x = true.
Proof. intros A. rewrite emb_le by assumption. apply Rle_b_true. apply Rle_refl. Qed.

Lemma clamped_within L lo hi r : PrimFloat.leb lo hi = true -> @clamped (FArith L) lo hi r -> within_or_nan lo hi r.
Proof.
  intros H C. destruct (leb_ordered _ _ H) as [Ol Oh]. unfold within_or_nan, within.
  destruct C as [-> |[-> |[A B]]].
  - right. split; [apply leb_refl_o; exact Ol|exact H].
  - right. split; [exact H|apply leb_refl_o; exact Oh].
  - destruct (PrimFloat.is_nan r) eqn:E; [left; reflexivity|right].
    split; apply ltb_leb; assumption.
Qed.

Lemma minus_K lo hi lo' hi' r : PrimFloat.is_nan lo = false -> within_or_nan lo hi r ->
  fin lo -> fin hi -> Rabs (val lo) <= 100000 -> Rabs (val hi) <= 100000 ->
  (lo - float_of_dec 273.15)%float = lo' -> (hi - float_of_dec 273.15)%float = hi' ->
  within_or_nan lo' hi' (r - float_of_dec 273.15)%float.
Proof.
  intros _ [H|H] Fl Fh Bl Bh El Eh.
  - left. destruct (PrimFloat.is_nan r) eqn:E; [|discriminate]. 
    rewrite Flocq.IEEE754.PrimFloat.is_nan_equiv in E. rewrite Flocq.IEEE754.PrimFloat.is_nan_equiv, Flocq.IEEE754.PrimFloat.sub_equiv.
    destruct (Flocq.IEEE754.PrimFloat.Prim2B r); try discriminate E. reflexivity.
  - right. apply within_val in H; [|assumption..]. destruct H as [Fr [R1 R2]].
    fconst (float_of_dec 273.15) Fk Vk. assert (Bk : 273 <= val (float_of_dec 273.15) <= 274) by (rewrite Vk; split; interval).
    apply Rabs_le_inv in Bl, Bh.
    destruct (fsub lo _ Fl Fk) as [G1 W1]; [apply small_1000; apply Rabs_le; lra|].
    destruct (fsub hi _ Fh Fk) as [G2 W2]; [apply small_1000; apply Rabs_le; lra|].
    destruct (fsub r _ Fr Fk) as [G3 W3]; [apply small_1000; apply Rabs_le; lra|].
    rewrite El in G1, W1. rewrite Eh in G2, W2. apply within_val; [assumption..|].
    split; [assumption|]. rewrite W1, W2, W3. split; apply rnd_mono; lra.
Qed.

Lemma wider lo hi lo' hi' r : within_or_nan lo hi r -> PrimFloat.leb lo' lo = true -> PrimFloat.leb hi hi' = true -> within_or_nan lo' hi' r.
Proof.
  intros [H|[A B]] C D; [left; exact H|right]. split; [exact (leb_trans _ _ _ C A)|exact (leb_trans _ _ _ B D)].
Qed.

Section F.
Variable L : Libm.
Notation A := (FArith L).

Lemma T5_out r : @clamped A (@T_MIN5 A) (@T_MAX5 A) r -> within_or_nan 800 2000 (r - float_of_dec 273.15)%float.
Proof.
  intros C. fconst (float_of_dec 1073.15) F1 V1. fconst (float_of_dec 2273.15) F2 V2.
  assert (W : within_or_nan (float_of_dec 1073.15) (float_of_dec 2273.15) r).
  { apply (clamped_within L); [vm_compute; reflexivity|exact C]. }
  eapply wider; [eapply (minus_K _ _ _ _ r _ W F1 F2); try reflexivity| |]; try (vm_compute; reflexivity).
  - rewrite V1. apply Rabs_le. split; interval.
  - rewrite V2. apply Rabs_le. split; interval.
  Unshelve. vm_compute. reflexivity.
Qed.
Lemma ph5 fuel a b : @call A fuel PH a b (from_pair (OT, 5%Z)) = Some (@ph2T_reg5 A a b - float_of_dec 273.15)%float.
Proof. reflexivity. Qed.
Lemma ps5 fuel a b : @call A fuel PS a b (from_pair (OT, 5%Z)) = Some (@ps2T_reg5 A a b - float_of_dec 273.15)%float.
Proof. reflexivity. Qed.
Lemma hs5 fuel a b : @call A fuel HS a b (from_pair (OT, 5%Z)) = Some (@ph2T_reg5 A (@hs2p_reg5 A a b) a - float_of_dec 273.15)%float.
Proof. reflexivity. Qed.
Lemma hs5p fuel a b : @call A fuel HS a b (from_pair (OP, 5%Z)) = Some (@hs2p_reg5 A a b).
Proof. reflexivity. Qed.
Lemma pv5 fuel a b : @call A fuel PV a b (from_pair (OT, 5%Z)) = Some (@pv2T_reg5 A a b - float_of_dec 273.15)%float.
Proof. reflexivity. Qed.
Lemma th5p fuel t b : @call A fuel TH t b (from_pair (OP, 5%Z)) = Some (@Th2p_reg5 A (t + float_of_dec 273.15)%float b).
Proof. reflexivity. Qed.
Lemma ts5p fuel t b : @call A fuel TS t b (from_pair (OP, 5%Z)) = Some (@Ts2p_reg5 A (t + float_of_dec 273.15)%float b).
Proof. reflexivity. Qed.
Lemma tv5p fuel t b : @call A fuel TV t b (from_pair (OP, 5%Z)) =
  match @Tv2p_reg5 A fuel (t + float_of_dec 273.15)%float b with None => None | Some p => Some p end.
Proof. reflexivity. Qed.
Lemma some_inj {X} (x y : X) : Some x = Some y -> x = y.
Proof. congruence. Qed.
Lemma T_region5 fuel f a b v : In f [PH; PS; PV; HS] -> @call A fuel f a b (from_pair (OT, 5%Z)) = Some v ->
  within_or_nan 800 2000 v.
Proof.
  intros Hf. destruct f; cbn in Hf; try (exfalso; intuition discriminate); clear Hf.
  - rewrite ph5. intros H. apply some_inj in H. rewrite <- H. apply T5_out. exact (@ph2T5 A a b).
  - rewrite ps5. intros H. apply some_inj in H. rewrite <- H. apply T5_out. exact (@ps2T5 A a b).
  - rewrite hs5. intros H. apply some_inj in H. rewrite <- H. apply T5_out. exact (@ph2T5 A (@hs2p_reg5 A a b) a).
  - rewrite pv5. intros H. apply some_inj in H. rewrite <- H. apply T5_out. exact (@pv2T5 A a b).
Qed.
Lemma p5_ok : PrimFloat.leb (@P_MIN5 A) (@P_MAX5 A) = true.
Proof. vm_compute. reflexivity. Qed.
Lemma hs_p_region5 fuel h s v : @call A fuel HS h s (from_pair (OP, 5%Z)) = Some v ->
  within_or_nan (float_of_dec 0.000611212677444) 50 v.
Proof.
  rewrite hs5p. intros H. apply some_inj in H. rewrite <- H.
  eapply wider; [apply (clamped_within L _ _ _ p5_ok); exact (@hs2p5 A h s)|vm_compute; reflexivity..].
Qed.

Lemma solved_recovers f reg (fn : float -> float) t y p :
  @call A 1 PT p t (from_pair (id2 f, reg)) = Some (fn p) -> @solved A fn y p -> recovers L f reg t y p.
Proof. intros E S. exists (fn p). split; [exact E|exact S]. Qed.

Lemma p_region5 fuel f t y p : In f [TV; TH; TS] -> @call A fuel f t y (from_pair (OP, 5%Z)) = Some p ->
  within_or_nan (float_of_dec 0.000611212677444) 50 p \/ recovers L f 5 t y p.
Proof.
  intros Hf H.
  assert (W : forall r, @clamped A (@P_MIN5 A) (@P_MAX5 A) r -> within_or_nan (float_of_dec 0.000611212677444) 50 r).
  { intros r C. eapply wider; [apply (clamped_within L _ _ _ p5_ok); exact C|vm_compute; reflexivity..]. }
  destruct f; cbn in Hf; try (exfalso; intuition discriminate); clear Hf.
  - rewrite tv5p in H. destruct (@Tv2p_reg5 A fuel _ y) as [r|] eqn:E; [|discriminate]. apply some_inj in H. rewrite <- H.
    destruct (@Tv2p5 A _ _ _ _ E) as [S|C]; [right|left; apply W; exact C].
    eapply solved_recovers; [|exact S]. reflexivity.
  - rewrite th5p in H. apply some_inj in H. rewrite <- H. destruct (@Th2p5 A (t + float_of_dec 273.15)%float y) as [S|C]; [right|left; apply W; exact C].
    eapply solved_recovers; [|exact S]. reflexivity.
  - rewrite ts5p in H. apply some_inj in H. rewrite <- H. destruct (@Ts2p5 A (t + float_of_dec 273.15)%float y) as [S|C]; [right|left; apply W; exact C].
    eapply solved_recovers; [|exact S]. reflexivity.
Qed.
End F.
