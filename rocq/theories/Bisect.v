(* The bisection on the saturation line (hx, sx): the temperature stays inside its
   bracket in binary64, and the bracket keeps a sign change in exact arithmetic. *)
From Coq Require Import ZArith List Bool Reals Floats Lra Lia.
From Flocq Require Import Core.Core.
From Interval Require Import Tactic.
From Verif Require Import Num Constant R4Sat Reg4 Api RealInst FloatInst NanFacts FloatOrder FloatErr RegionMap SatFloat
  LoopFacts Spec SpecReal RealSat SpecWet SatApi Lever LeverReal SpecSolver.
Import ListNotations.
Open Scope R_scope.

(* ---- binary64 ---- *)
Local Instance prec_pos : Prec_gt_0 FloatOps.prec := eq_refl.
Lemma rnd_mono x y : x <= y -> rnd x <= rnd y.
Proof. apply round_le; typeclasses eauto. Qed.

Lemma within_val a b x : fin a -> fin b -> within a b x <-> fin x /\ val a <= val x <= val b.
Proof.
  intros Fa Fb. split.
  - intros [A B]. assert (F := fin_between x a b Fa Fb A B).
    rewrite leb_val in A, B by assumption. apply Rle_b_inv in A, B. auto.
  - intros (F & A & B). split; rewrite leb_val by assumption; apply Rle_b_true; assumption.
Qed.

Lemma small_1000 z : Rabs z <= 1000000 -> small z.
Proof. intros H. apply (small_le z 1000000 H). apply IZR_le. vm_compute. discriminate. Qed.

Notation T0 := (float_of_dec 273.15).
Notation T1 := (float_of_dec 647.096).
Definition mid (a b : float) : float := (float_of_dec 0.5 * (a + b))%float.

Lemma mid_within a b : within T0 T1 a -> within T0 T1 b -> within T0 T1 (mid a b).
Proof.
  intros A B. fconst (float_of_dec 273.15) F0 V0. fconst (float_of_dec 647.096) F1 V1. fconst (float_of_dec 0.5) Fh Vh.
  fconst (T0 + T0)%float G2 V2. fconst (T1 + T1)%float G3 V3.
  apply within_val in A; [|assumption..]. apply within_val in B; [|assumption..].
  destruct A as (Fa & A), B as (Fb & B). apply within_val; [assumption..|].
  assert (R0 : 273 <= val T0 <= 274) by (rewrite V0; split; interval).
  assert (R1 : 647 <= val T1 <= 648) by (rewrite V1; split; interval).
  assert (R2 : 546 <= val (T0 + T0)%float <= 547) by (rewrite V2; split; interval).
  assert (R3 : 1294 <= val (T1 + T1)%float <= 1295) by (rewrite V3; split; interval).
  assert (Rh : 0 <= val (float_of_dec 0.5) <= 1) by (rewrite Vh; split; interval).
  clear V0 V1 Vh V2 V3.
  destruct (fadd a b Fa Fb) as [G1 W1]; [apply small_1000; rewrite Rabs_pos_eq; lra|].
  destruct (fadd (T0) (T0) F0 F0) as [_ W2]; [apply small_1000; rewrite Rabs_pos_eq; lra|].
  destruct (fadd T1 T1 F1 F1) as [_ W3]; [apply small_1000; rewrite Rabs_pos_eq; lra|].
  assert (L1 : val (T0 + T0)%float <= val (a + b)%float <= val (T1 + T1)%float).
  { rewrite W1, W2, W3. split; apply rnd_mono; lra. }
  assert (SM : forall z, fin z -> 0 <= val z <= 1295 -> small (val (float_of_dec 0.5) * val z)).
  { intros z _ Hz. apply small_1000. rewrite Rabs_pos_eq; nra. }
  destruct (fmul _ (a + b)%float Fh G1) as [M1 X1]; [apply SM; [assumption|lra]|].
  destruct (fmul _ (T0 + T0)%float Fh G2) as [_ X2]; [apply SM; [assumption|lra]|].
  destruct (fmul _ (T1 + T1)%float Fh G3) as [_ X3]; [apply SM; [assumption|lra]|].
  assert (E0 : (float_of_dec 0.5 * (T0 + T0))%float = T0) by (vm_compute; reflexivity).
  assert (E1 : (float_of_dec 0.5 * (T1 + T1))%float = T1) by (vm_compute; reflexivity).
  rewrite E0 in X2. rewrite E1 in X3. split; [exact M1|]. unfold mid. rewrite X1, X2, X3.
  split; apply rnd_mono; apply Rmult_le_compat_l; lra.
Qed.

Lemma sub_within x : within T0 T1 x -> within 0 (T1 - T0) (x - T0)%float.
Proof.
  intros A. fconst (float_of_dec 273.15) F0 V0. fconst (float_of_dec 647.096) F1 V1. fconst (T1 - T0)%float F2 V2.
  apply within_val in A; [|assumption..]. destruct A as (Fx & A).
  assert (R0 : 273 <= val T0 <= 274) by (rewrite V0; split; interval).
  assert (R1 : 647 <= val T1 <= 648) by (rewrite V1; split; interval).
  destruct (fsub x T0 Fx F0) as [G1 W1]; [apply small_1000; rewrite Rabs_pos_eq; lra|].
  destruct (fsub T1 T0 F1 F0) as [_ W2]; [apply small_1000; rewrite Rabs_pos_eq; lra|].
  apply within_val; [apply (fin_zero _ false); reflexivity|assumption|].
  split; [exact G1|]. rewrite (val_zero 0%float false) by reflexivity. rewrite W1, W2. split.
  - rewrite <- (round_0 radix2 (FLT_exp (3 - FloatOps.emax - FloatOps.prec) FloatOps.prec) ZnearestE). apply rnd_mono. lra.
  - apply rnd_mono. lra.
Qed.

Section Float.
Variable L : Libm.
Notation body x y id tol := (fun '(Tl, Tr, T, fl) =>
       let T := @mul (FArith L) (@lit (FArith L) 0.5%dec) (@add (FArith L) Tl Tr) in
       let f := @Ty2x_residuals (FArith L) T x y id in
       if @ltb (FArith L) (@nabs (FArith L) f) tol then inr T
       else
       if @ltb (FArith L) (@mul (FArith L) f fl) (@lit (FArith L) 0.0%dec) then inl (Tl, T, T, fl)
       else inl (T, Tr, T, f)).

Lemma body_within (x y : float) id (tol a c T fl : float) : within T0 T1 a -> within T0 T1 c ->
  match body x y id tol (a, c, T, fl) with
  | inl (a, c, T, _) => within T0 T1 a /\ within T0 T1 c /\ within T0 T1 T
  | inr T => within T0 T1 T
  end.
Proof.
  intros A C. assert (M := mid_within a c A C). unfold mid in M. cbv beta iota zeta.
  match goal with |- context [if ?b then inr _ else _] => destruct b end; [exact M|].
  match goal with |- context [if ?b then inl _ else _] => destruct b end; auto.
Qed.

Definition okst (s : float * float * float * float) : Prop :=
  let '(a, c, T, _) := s in within T0 T1 a /\ within T0 T1 c /\ within T0 T1 T.
Lemma loop_out (bd : float * float * float * float -> (float * float * float * float) + float) m o :
  (forall a c T fl, within T0 T1 a -> within T0 T1 c -> match bd (a, c, T, fl) with inl s => okst s | inr T => within T0 T1 T end) ->
  match o with inl s => okst s | inr T => within T0 T1 T end ->
  within T0 T1 match (match o with inl s1 => loop_nat bd m s1 | inr r => inr r end) with inl (_, _, T, _) => T | inr T => T end.
Proof.
  intros S H. destruct o as [s1|T]; [|exact H].
  generalize (loop_nat_inv bd okst (within T0 T1) m s1).
  intros I. specialize (I ltac:(intros [[[a c] T] fl] (A & C & _); apply S; assumption) H).
  destruct (loop_nat bd m s1) as [[[[a c] T] fl]|T]; [destruct I as (_ & _ & I); exact I|exact I].
Qed.

Lemma bisection_within x y id tol n : (0 < n)%Z ->
  within T0 T1 (@bisection_reg4 (FArith L) x y id T0 T1 tol n).
Proof.
  intros Hn. unfold bisection_reg4. cbv zeta.
  replace (n <=? 0)%Z with false by (symmetry; apply Z.leb_gt; exact Hn).
  rewrite loop_pos_nat. destruct (Pos.to_nat (Z.to_pos n)) as [|m] eqn:E; [lia|]. clear E Hn. cbn [loop_nat].
  assert (W0 : within T0 T1 T0) by (split; vm_compute; reflexivity).
  assert (W1 : within T0 T1 T1) by (split; vm_compute; reflexivity).
  apply (loop_out (body x y id tol)).
  - intros a c T fl A C. exact (body_within x y id tol a c T fl A C).
  - exact (body_within x y id tol T0 T1 (float_of_dec 0.0) (@Ty2x_residuals (FArith L) T0 x y id) W0 W1).
Qed.

Lemma within_946 x : within 0 (T1 - T0) x -> within 0 (float_of_dec 373.946) x.
Proof. assert (E : (T1 - T0)%float = float_of_dec 373.946) by (vm_compute; reflexivity). rewrite E. auto. Qed.

Lemma hx_temp (h x : float) :
  (@ltb (FArith L) H_MAX4 h || @ltb (FArith L) h H_MIN4 || PrimFloat.ltb 1 x || PrimFloat.ltb x 0)%bool = false ->
  within 0 (float_of_dec 373.946) (@hx (FArith L) h x OT).
Proof.
  intros H. unfold hx. replace (@lit (FArith L) 1.0%dec) with 1%float by reflexivity.
  replace (@lit (FArith L) 0.0%dec) with 0%float by reflexivity.
  match goal with |- context [if ?b then _ else _] => replace b with false by (symmetry; exact H) end.
  apply within_946.
  change (within 0 (T1 - T0) (@bisection_reg4 (FArith L) x h OH T0 T1 (@lit (FArith L) 0.00001%dec) 1000 - T0)%float).
  apply sub_within, bisection_within. reflexivity.
Qed.
Lemma sx_temp (s x : float) :
  (@ltb (FArith L) S_MAX4 s || @ltb (FArith L) s S_MIN4 || PrimFloat.ltb 1 x || PrimFloat.ltb x 0)%bool = false ->
  within 0 (float_of_dec 373.946) (@sx (FArith L) s x OT).
Proof.
  intros H. unfold sx. replace (@lit (FArith L) 1.0%dec) with 1%float by reflexivity.
  replace (@lit (FArith L) 0.0%dec) with 0%float by reflexivity.
  match goal with |- context [if ?b then _ else _] => replace b with false by (symmetry; exact H) end.
  apply within_946.
  change (within 0 (T1 - T0) (@bisection_reg4 (FArith L) x s OS T0 T1 (@lit (FArith L) 0.00001%dec) 1000 - T0)%float).
  apply sub_within, bisection_within. reflexivity.
Qed.
End Float.

(* ---- exact arithmetic ---- *)
Section Real.
Variable g : R -> R.
Variable tol : R.
Hypothesis tol_pos : 0 < tol.
Definition rbody (s : R * R * R * R) : (R * R * R * R) + R :=
  let '(Tl, Tr, T, fl) := s in
  let T := 5/10 * (Tl + Tr) in
  let f := g T in
  if Rlt_b (Rabs f) tol then inr T
  else if Rlt_b (f * fl) (0/10) then inl (Tl, T, T, fl) else inl (T, Tr, T, f).

Lemma rloop n : forall a b T, a <= b ->
  match loop_nat rbody n (a, b, T, g a) with
  | inr t => a <= t <= b /\ Rabs (g t) < tol
  | inl (a', b', t, _) => a <= a' /\ a' <= b' /\ b' <= b /\ b' - a' = (b - a) / 2 ^ n /\
      (n = 0%nat /\ t = T \/ (t = a' \/ t = b')) /\ (g a * g b < 0 -> g a' * g b' < 0)
  end.
Proof.
  induction n as [|n IH]; intros a b T Hab.
  - cbn. repeat split; auto; try lra.
  - cbn [loop_nat]. unfold rbody at 1.
    set (m := 5/10 * (a + b)). assert (Hm : m - a = (b - a) / 2 /\ b - m = (b - a) / 2) by (unfold m; lra).
    destruct (Rlt_b (Rabs (g m)) tol) eqn:E1.
    + apply Rlt_b_inv in E1. split; [lra|exact E1].
    + apply Rlt_b_inv_f in E1.
      assert (Np : g m <> 0) by (intros Z; rewrite Z, Rabs_R0 in E1; lra).
      assert (P2 : 0 < 2 ^ n) by (apply pow_lt; lra).
      destruct (Rlt_b (g m * g a) (0/10)) eqn:E2.
      * apply Rlt_b_inv in E2. specialize (IH a m m ltac:(lra)).
        destruct (loop_nat rbody n (a, m, m, g a)) as [[[[a' b'] t] w]|t].
        -- destruct IH as (I1 & I2 & I3 & I4 & I5 & I6).
           split; [lra|]; split; [lra|]; split; [lra|]; split; [|split].
           ++ rewrite I4, (proj1 Hm). cbn [pow]. field. lra.
           ++ right. destruct I5 as [[-> ->]|I5]; [|exact I5].
              cbn in I4. right. lra.
           ++ intros _. apply I6. lra.
        -- destruct IH as [I1 I2]. split; [lra|exact I2].
      * apply Rlt_b_inv_f in E2. specialize (IH m b m ltac:(lra)).
        destruct (loop_nat rbody n (m, b, m, g m)) as [[[[a' b'] t] w]|t].
        -- destruct IH as (I1 & I2 & I3 & I4 & I5 & I6).
           split; [lra|]; split; [lra|]; split; [lra|]; split; [|split].
           ++ rewrite I4, (proj2 Hm). cbn [pow]. field. lra.
           ++ right. destruct I5 as [[-> ->]|I5]; [|exact I5].
              cbn in I4. left. lra.
           ++ intros H. apply I6.
              assert (Q : g m * g b * (g a * g a) <= 0 -> g m * g b < 0).
              { intros Q. destruct (Rtotal_order (g a) 0) as [?|[?|?]]; nra. }
              apply Q. replace (g m * g b * (g a * g a)) with ((g m * g a) * (g a * g b)) by ring. nra.
        -- destruct IH as [I1 I2]. split; [lra|exact I2].
Qed.
End Real.

Lemma resid_api T x y o : 273.15 <= T <= 647.096 -> o = OH \/ o = OS ->
  @Ty2x_residuals RArith T x y o = quality_error o y x (T - 273.15).
Proof.
  intros HT Ho. unfold quality_error.
  destruct (tx_ends (T - 273.15) o) as [E0 E1]; [lra|destruct Ho as [-> | ->]; cbn; auto|].
  replace (T - 273.15 + 273.15) with T in E0, E1 by lra. rewrite E0, E1. reflexivity.
Qed.

Lemma bisect_real x y o n : o = OH \/ o = OS -> (0 < n)%nat ->
  bisected (quality_error o y x) (1/100000) n
    (@bisection_reg4 RArith x y o (27315/100)%R (647096/1000)%R (1/100000)%R (Z.of_nat n) - 273.15).
Proof.
  intros Ho Hn. set (g := fun T : R => @Ty2x_residuals RArith T x y o).
  unfold bisection_reg4. cbv zeta. replace (Z.of_nat n <=? 0)%Z with false by (symmetry; apply Z.leb_gt; lia).
  rewrite loop_pos_nat. replace (Pos.to_nat (Z.to_pos (Z.of_nat n))) with n by lia.
  assert (G : forall T, 27315/100 <= T <= 647096/1000 -> g T = quality_error o y x (T - 273.15)).
  { intros T HT. apply resid_api; [lra|exact Ho]. }
  assert (K : forall r : (R * R * R * R) + R,
    match r with
    | inr t => 27315/100 <= t <= 647096/1000 /\ Rabs (g t) < 1/100000
    | inl (a', b', t, _) => 27315/100 <= a' /\ a' <= b' /\ b' <= 647096/1000 /\ b' - a' = (647096/1000 - 27315/100) / 2 ^ n /\
      (n = 0%nat /\ t = 0/10 \/ (t = a' \/ t = b')) /\ (g (27315/100) * g (647096/1000) < 0 -> g a' * g b' < 0)
    end -> bisected (quality_error o y x) (1/100000) n (match r with inr T => T | inl (_, _, T, _) => T end - 273.15)).
  { unfold bisected. intros [[[[a b] t] w]|t].
  - intros (I1 & I2 & I3 & I4 & I5 & I6).
    assert (I5' : t = a \/ t = b) by (destruct I5 as [[? _]|?]; [lia|assumption]). clear I5.
    split; [destruct I5' as [->| ->]; lra|]. right. exists (a - 273.15), (b - 273.15).
    split; [lra|]. split; [lra|]. split; [lra|]. split; [|split].
    + replace (b - 273.15 - (a - 273.15)) with (b - a) by lra. rewrite I4. f_equal. lra.
    + destruct I5' as [->| ->]; auto.
    + rewrite !G in I6 by lra. replace (27315/100 - 273.15) with 0 in I6 by lra.
      replace (647096/1000 - 273.15) with 373.946 in I6 by lra. exact I6.
  - intros [I1 I2]. split; [lra|]. left. rewrite <- G by lra. exact I2. }
  exact (K _ (rloop g (1/100000) ltac:(lra) n (27315/100) (647096/1000) (0/10) ltac:(lra))).
Qed.

Lemma nat1000 : Z.of_nat 1000 = 1000%Z. Proof. reflexivity. Qed.
Lemma sub_eq (a b c : R) : b = c -> a - b = a - c. Proof. intros ->. reflexivity. Qed.
Lemma tenm5 : 1/100000 = 1e-5. Proof. lra. Qed.
Lemma hx_real h x : 0.38039218566765925 <= h <= 2803.2738880203456 -> 0 <= x <= 1 ->
  bisected (quality_error OH h x) 1e-5 1000 (@hx RArith h x OT).
Proof.
  intros Hh Hx. rewrite <- tenm5. unfold hx, H_MAX4, H_MIN4.
  match goal with |- context [if ?b then _ else _] => replace b with false end.
  - generalize (bisect_real x h OH 1000 (or_introl eq_refl) ltac:(lia)). rewrite nat1000. intros H.
    change (Z.eqb OT OH) with false. change (Z.eqb OT OX) with false. cbv iota.
    unfold hx_reg4. change (Z.eqb OT OT) with true. cbv iota zeta. unfold T_MIN4, T_MAX4. rlits. 
    match goal with |- bisected _ _ _ ?t => match type of H with bisected _ _ _ ?t' => replace t with t'; [exact H|] end end.
    apply sub_eq. lra.
  - symmetry. rnum. repeat (apply orb_false_intro); apply Rlt_b_false; lra.
Qed.
Lemma sx_real s x : 0.33567511183921145 <= s <= 9.153081306725117 -> 0 <= x <= 1 ->
  bisected (quality_error OS s x) 1e-5 1000 (@sx RArith s x OT).
Proof.
  intros Hh Hx. rewrite <- tenm5. unfold sx, S_MAX4, S_MIN4.
  match goal with |- context [if ?b then _ else _] => replace b with false end.
  - generalize (bisect_real x s OS 1000 (or_intror eq_refl) ltac:(lia)). rewrite nat1000. intros H.
    change (Z.eqb OT OS) with false. change (Z.eqb OT OX) with false. cbv iota.
    unfold sx_reg4. change (Z.eqb OT OT) with true. cbv iota zeta. unfold T_MIN4, T_MAX4. rlits. 
    match goal with |- bisected _ _ _ ?t => match type of H with bisected _ _ _ ?t' => replace t with t'; [exact H|] end end.
    apply sub_eq. lra.
  - symmetry. rnum. repeat (apply orb_false_intro); apply Rlt_b_false; lra.
Qed.

(* a state accepted by the tolerance has the given enthalpy or entropy within 1e-5 of the
   evaporation difference *)
Lemma quality_error_close o y x t e : wet_T (t + 273.15) -> 0 <= x <= 1 -> In o (OV :: energy_ids) -> TX t 0 o <> TX t 1 o ->
  Rabs (quality_error o y x t) < e -> Rabs (TX t x o - y) < e * Rabs (TX t 1 o - TX t 0 o).
Proof.
  intros Ht Hx Ho D H. rewrite (tx_line t x o Ht Hx Ho). revert H. unfold quality_error.
  generalize dependent (TX t 0 o). generalize (TX t 1 o). intros b a D H.
  assert (P : 0 < Rabs (b - a)) by (apply Rabs_pos_lt; lra).
  replace (a + x * (b - a) - y) with (- (((y - a) / (b - a) - x) * (b - a))) by (field; lra).
  rewrite Rabs_Ropp, Rabs_mult. apply Rmult_lt_compat_r; assumption.
Qed.
