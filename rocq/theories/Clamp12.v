(* The answers of the inverse functions of regions 1 and 2 in binary64 *)
From Coq Require Import ZArith List Bool Floats Reals Lra Lia.
From Flocq Require Import Core.
From Interval Require Import Tactic.
From Verif Require Import Num Types Region Algo Constant R4Sat Boundaries Reg1 Reg2 Reg1Back Reg2Back Reg4 Api Spec FloatInst RealInst RegionMap FloatOrder FloatErr SatFloat LoopFacts SpecSolver Bisect TermFacts TermFloat Clamp SpecInverse ClampFloat.
Import ListNotations.
Open Scope R_scope.

Section F.
Variable L : Libm.
Notation A := (FArith L).

(* ---- the temperature of pv in region 1 ---- *)
Notation TL := (float_of_dec 273.15).
Notation TH := (float_of_dec 623.15).
Notation TU := (float_of_dec 623.161).
Notation d01 := (float_of_dec 0.01).
Notation d001 := (float_of_dec 0.001).

(* T + c and T - c are on the right side of T, and not far *)
Lemma add_small T c lo hi : fin T -> fin c -> 270 <= lo -> hi <= 1100 -> lo <= val T <= hi -> 1/2000 <= val c <= 1/50 ->
  fin (T + c)%float /\ val T <= val (T + c)%float <= val T + val c + 1/1000000000000.
Proof.
  intros FT Fc L1 H1 B C. destruct (xadd T c FT Fc) as (d & e & (D & E) & G & W); [apply small_1000; apply Rabs_le; lra|].
  apply Rabs_le_inv in D, E. split; [exact G|]. rewrite W.
  set (t := val T) in *. set (q := val c) in *. assert (Bt : 270 <= t <= 1100) by lra.
  assert (Y : -1/1000000000000 <= (t + q) * d + e <= 1/1000000000000) by (split; interval).
  replace ((t + q) * (1 + d) + e) with (t + q + ((t + q) * d + e)) by ring. lra.
Qed.
Lemma sub_small T c lo hi : fin T -> fin c -> 270 <= lo -> hi <= 1100 -> lo <= val T <= hi -> 1/2000 <= val c <= 1/50 ->
  fin (T - c)%float /\ val T - val c - 1/1000000000000 <= val (T - c)%float <= val T.
Proof.
  intros FT Fc L1 H1 B C. destruct (xsub T c FT Fc) as (d & e & (D & E) & G & W); [apply small_1000; apply Rabs_le; lra|].
  apply Rabs_le_inv in D, E. split; [exact G|]. rewrite W.
  set (t := val T) in *. set (q := val c) in *. assert (Bt : 270 <= t <= 1100) by lra.
  assert (Y : -1/1000000000000 <= (t - q) * d + e <= 1/1000000000000) by (split; interval).
  replace ((t - q) * (1 + d) + e) with (t - q + ((t - q) * d + e)) by ring. lra.
Qed.

Lemma add01 T : within TL TH T -> within TL TU (T + d01)%float.
Proof.
  intros W. fconst (float_of_dec 273.15) F0 V0. fconst (float_of_dec 623.15) F1 V1. fconst (float_of_dec 623.161) F2 V2. fconst (float_of_dec 0.01) Fd Vd.
  apply within_val in W; [|assumption..]. destruct W as [FT W].
  destruct (add_small T _ (val TL) (val TH) FT Fd) as [G B]; [rewrite V0; interval|rewrite V1; interval|exact W|rewrite Vd; split; interval|].
  apply within_val; [assumption..|]. split; [exact G|].
  assert (X : val TH + val d01 + 1/1000000000000 <= val TU) by (rewrite V1, Vd, V2; interval). lra.
Qed.
Lemma sub001 T : within TL TH T -> PrimFloat.ltb (T - d001) TL = false -> within TL TH (T - d001)%float.
Proof.
  intros W N. fconst (float_of_dec 273.15) F0 V0. fconst (float_of_dec 623.15) F1 V1. fconst (float_of_dec 0.001) Fd Vd.
  apply within_val in W; [|assumption..]. destruct W as [FT W].
  destruct (sub_small T _ (val TL) (val TH) FT Fd) as [G B]; [rewrite V0; interval|rewrite V1; interval|exact W|rewrite Vd; split; interval|].
  apply within_val; [assumption..|]. split; [exact G|]. rewrite ltb_val in N by assumption. apply Rlt_b_inv_f in N. lra.
Qed.
Lemma w_up T : within TL TH T -> within TL TU T.
Proof. intros [W1 W2]. split; [exact W1|]. apply (leb_trans _ _ _ W2). vm_compute. reflexivity. Qed.
Lemma not_above T : within TL TU T -> PrimFloat.ltb TH T = false -> within TL TH T.
Proof. intros [W1 W2] N. split; [exact W1|]. destruct (leb_ordered _ _ W2) as [O _]. apply ltb_leb; [vm_compute; reflexivity|exact O|exact N]. Qed.

Notation wn := within_or_nan.
Lemma nan_add T c : PrimFloat.is_nan T = true -> PrimFloat.is_nan (T + c) = true.
Proof.
  rewrite !Flocq.IEEE754.PrimFloat.is_nan_equiv, Flocq.IEEE754.PrimFloat.add_equiv.
  destruct (Flocq.IEEE754.PrimFloat.Prim2B T); try discriminate. reflexivity.
Qed.
Lemma nan_sub T c : PrimFloat.is_nan T = true -> PrimFloat.is_nan (T - c) = true.
Proof.
  rewrite !Flocq.IEEE754.PrimFloat.is_nan_equiv, Flocq.IEEE754.PrimFloat.sub_equiv.
  destruct (Flocq.IEEE754.PrimFloat.Prim2B T); try discriminate. reflexivity.
Qed.
Definition upP (st : float * float * Z) : Prop := wn TL TH (fst (fst st)).
Definition upQ (r : float + float * float) : Prop := match r with inl T => wn TL TU T | inr (T, _) => wn TL TH T end.
Lemma wn_add T : wn TL TH T -> wn TL TU (T + d01)%float.
Proof. intros [H|H]; [left; apply nan_add; exact H|right; apply add01; exact H]. Qed.
Lemma wn_sub T : wn TL TH T -> PrimFloat.ltb (T - d001) TL = false -> wn TL TH (T - d001)%float.
Proof. intros [H|H] N; [left; apply nan_sub; exact H|right; apply sub001; assumption]. Qed.
Lemma wn_up T : wn TL TH T -> wn TL TU T.
Proof. intros [H|H]; [left; exact H|right; apply w_up; exact H]. Qed.
Lemma wn_not T : wn TL TU T -> PrimFloat.ltb TH T = false -> wn TL TH T.
Proof. intros [H|H] N; [left; exact H|right; apply not_above; assumption]. Qed.
Lemma up_inv p v T r : wn TL TH T -> upQ (@pv2T_reg1_up A p v T r).
Proof.
  intros W. unfold pv2T_reg1_up.
  generalize (loop_pos_inv (@pv2T_reg1_up_round A p v) upP upQ 1000001 (T, r, 0%Z)). intros I.
  match type of I with ?X -> _ => assert (G : X) end.
  { clear. intros [[T r] k] W. unfold upP in W. cbn [fst] in W. apply wn_add in W. unfold pv2T_reg1_up_round. cbv zeta.
    match goal with |- context [if ?c then _ else _] => destruct c eqn:E end; [exact W|].
    apply wn_not in W; [|exact E].
    match goal with |- context [if ?c then _ else _] => destruct c end; [exact (wn_up _ W)|].
    match goal with |- context [if ?c then _ else _] => destruct c end; exact W. }
  specialize (I G W). destruct (loop_pos _ _ _) as [[[T' r'] k]|x]; exact I.
Qed.
Lemma down_inv p v T r : wn TL TH T -> upQ (@pv2T_reg1_down A p v T r).
Proof.
  intros W. unfold pv2T_reg1_down.
  generalize (loop_pos_inv (@pv2T_reg1_down_round A p v) upP upQ 1000001 (T, r, 0%Z)). intros I.
  match type of I with ?X -> _ => assert (G : X) end.
  { clear. intros [[T r] k] W. unfold upP in W. cbn [fst] in W. pose proof (wn_sub _ W) as W'. unfold pv2T_reg1_down_round. cbv zeta.
    match goal with |- context [if ?c then _ else _] => destruct c eqn:E end; [right; split; vm_compute; reflexivity|].
    specialize (W' E).
    match goal with |- context [if ?c then _ else _] => destruct c end; [exact (wn_up _ W')|].
    match goal with |- context [if ?c then _ else _] => destruct c end; exact W'. }
  specialize (I G W). destruct (loop_pos _ _ _) as [[[T' r'] k]|x]; exact I.
Qed.

Lemma adjust_fin (o : float + float * float) (g : float -> float -> float + float * float) (b : float -> bool) :
  upQ o -> (forall T r, wn TL TH T -> upQ (g T r)) ->
  let x := match o with inl r => r | inr (T, r) => match (if b r then g T r else inr (T, r)) with inl r => r | inr _ => float_of_Z INVALID_VALUE end end in
  x = float_of_Z INVALID_VALUE \/ wn TL TU x.
Proof.
  intros O G. destruct o as [r|[T r]]; cbv zeta; [right; exact O|].
  destruct (b r); [|left; reflexivity]. specialize (G T r O). destruct (g T r) as [x|[x y]]; [right; exact G|left; reflexivity].
Qed.
Lemma adjust_in p v T : let x := @pv2T_reg1_adjust A p v T in x = float_of_Z INVALID_VALUE \/ wn TL TU x.
Proof.
  unfold pv2T_reg1_adjust. cbv zeta.
  match goal with |- context [pv2T_reg1_up p v ?t ?r] => set (T' := t); set (r' := r) end.
  assert (W : wn TL TH T').
  { apply (clamped_within L); [vm_compute; reflexivity|]. exact (@clamp_l_h A (@T_MIN1 A) (@T_MAX1 A) T). }
  refine (adjust_fin (if @ltb A (@lit A 0.0%dec) r' then @pv2T_reg1_up A p v T' r' else inr (T', r')) (@pv2T_reg1_down A p v) (fun r => @ltb A r (@lit A 0.0%dec)) _ _).
  - destruct (@ltb A _ r'); [apply up_inv; exact W|exact W].
  - intros; apply down_inv; assumption.
Qed.
Lemma pv2T1 p v : let x := @pv2T_reg1 A p v in x = float_of_Z INVALID_VALUE \/ wn TL TU x.
Proof.
  unfold pv2T_reg1. cbv zeta.
  match goal with |- context [let '(a, b) := ?z in _] => destruct z as [T2 f] end.
  match goal with |- context [if ?c then ?t else _] => destruct c eqn:E end; [|apply adjust_in].
  apply andb_true_iff in E. destruct E as [E _]. apply andb_true_iff in E. right. apply wn_up. right. exact E.
Qed.
Lemma pv1 fuel a b : @call A fuel PV a b (from_pair (OT, 1%Z)) = Some (@pv2T_reg1 A a b - float_of_dec 273.15)%float.
Proof. reflexivity. Qed.
Lemma T_region1 fuel p v t : @call A fuel PV p v (from_pair (OT, 1%Z)) = Some t ->
  t = float_of_dec (-10272.15) \/ wn 0 (float_of_dec 350.011) t.
Proof.
  rewrite pv1. intros H. apply some_inj in H. rewrite <- H. destruct (pv2T1 p v) as [E|W].
  - left. cbv zeta in E. rewrite E. vm_compute. reflexivity.
  - right. fconst (float_of_dec 273.15) F1 V1. fconst (float_of_dec 623.161) F2 V2.
    eapply wider; [eapply (minus_K _ _ _ _ _ _ W F1 F2); try reflexivity| |]; try (vm_compute; reflexivity).
    + rewrite V1. apply Rabs_le. split; interval.
    + rewrite V2. apply Rabs_le. split; interval.
  Unshelve. vm_compute. reflexivity.
Qed.

(* ---- pressures of region 2 ---- *)
Hypothesis HP : powi4_in L.
Lemma in_le : powi4_le L.
Proof. intros x A1 A2. exact (proj2 (HP x (conj A1 A2))). Qed.
Lemma psat_in T : within TL (float_of_dec 647.096) T -> within 0 100 (@p_saturation A T).
Proof.
  intros [A1 A2]. rewrite (psat_is_root L T (leb_ltb_f _ _ A1) (leb_ltb_f _ _ A2)).
  destruct (root_fin L T A1 A2) as (F & V1 & V2). apply HP.
  fconst 0%float F0 V0. fconst 3%float F3 V3. apply within_val; [assumption..|]. split; [exact F|]. rewrite V0, V3.
  split; [eapply Rle_trans; [|exact V1]; simpl; lra|eapply Rle_trans; [exact V2|]; simpl; lra].
Qed.
Lemma b23_in T : within TH (float_of_dec 863.15) T -> within 0 (float_of_dec 100.001) (@B23_T2p A T).
Proof.
  intros W. fconst (float_of_dec 623.15) Fl Vl. fconst (float_of_dec 863.15) Fh Vh.
  apply within_val in W; [|assumption..]. destruct W as [FT [A1 A2]]. rewrite Vl in A1. rewrite Vh in A2.
  assert (HB : 623 <= val T <= 86315000001/100000000) by (split; [eapply Rle_trans; [|exact A1]|eapply Rle_trans; [exact A2|]]; interval).
  clear A1 A2. unfold B23_T2p, B23_T2p_n23. cbn [nth lit add mul FArith].
  fconst (float_of_dec 0.34805185628969e3) F0 V0. fconst (float_of_dec (-0.11671859879975e1)) F1 V1. fconst (float_of_dec 0.10192970039326e-2) F2 V2.
  opn (xmul _ T F2 FT ltac:(rewrite V2; smallv)) G1 W1. rewrite V2 in W1.
  opn (xadd _ _ F1 G1 ltac:(rewrite V1, W1; smallv)) G2 W2. rewrite V1, W1 in W2.
  opn (xmul _ T G2 FT ltac:(rewrite W2; smallv)) G3 W3. rewrite W2 in W3.
  opn (xadd _ _ F0 G3 ltac:(rewrite V0, W3; smallv)) G4 W4. rewrite V0, W3 in W4.
  fconst 0%float F5 V5. fconst (float_of_dec 100.001) F6 V6. apply within_val; [assumption..|]. split; [exact G4|].
  rewrite W4, V5, V6. split; interval with (i_bisect (val T), i_depth 20).
Qed.
Lemma pmax_in T : within 0 (float_of_dec 100.001) (@T2pmax_reg2 A T).
Proof.
  unfold T2pmax_reg2. cbv zeta. cbn [leb ltb lit FArith].
  destruct (PrimFloat.leb (float_of_dec 273.15) T && PrimFloat.leb T (float_of_dec 623.15))%bool eqn:E1.
  { apply andb_true_iff in E1. destruct E1 as [A1 A2].
    assert (B2 : PrimFloat.leb T (float_of_dec 647.096) = true) by (apply (leb_trans _ _ _ A2); vm_compute; reflexivity).
    destruct (psat_in T (conj A1 B2)) as [C1 C2]. split; [exact C1|apply (leb_trans _ _ _ C2); vm_compute; reflexivity]. }
  destruct (PrimFloat.ltb (float_of_dec 623.15) T && PrimFloat.leb T (float_of_dec 863.15))%bool eqn:E2.
  { apply andb_true_iff in E2. destruct E2 as [A1 A2]. apply b23_in. split; [|exact A2].
    destruct (leb_ordered _ _ A2) as [O _]. assert (O2 : ordered (float_of_dec 623.15)) by (vm_compute; reflexivity).
    rewrite emb_lt in A1 by assumption. rewrite emb_le by assumption. apply Rlt_b_inv in A1. apply Rle_b_true. lra. }
  match goal with |- context [if ?b then _ else _] => destruct b end; split; vm_compute; reflexivity.
Qed.
Lemma p2_in T r : @clamped A (@P_MIN2 A) (@T2pmax_reg2 A T) r -> wn 0 (float_of_dec 100.001) r.
Proof.
  intros C. destruct (pmax_in T) as [M1 M2]. destruct C as [-> |[-> |[C1 C2]]].
  - right. split; vm_compute; reflexivity.
  - right. split; assumption.
  - destruct (PrimFloat.is_nan r) eqn:E; [left; exact E|right].
    destruct (leb_ordered _ _ M1) as [_ O].
    split.
    + apply (leb_trans _ (@P_MIN2 A)); [vm_compute; reflexivity|]. apply ltb_leb; [exact E|vm_compute; reflexivity|exact C1].
    + apply (leb_trans _ _ _ (ltb_leb _ _ O E C2) M2).
Qed.
Lemma th2p fuel t b : @call A fuel Spec.TH t b (from_pair (OP, 2%Z)) =
  match @Th2p_reg2 A fuel (t + float_of_dec 273.15)%float b with None => None | Some p => Some p end.
Proof. reflexivity. Qed.
Lemma tv2p fuel t b : @call A fuel TV t b (from_pair (OP, 2%Z)) =
  match @Tv2p_reg2 A fuel (t + float_of_dec 273.15)%float b with None => None | Some p => Some p end.
Proof. reflexivity. Qed.
Lemma ts2p fuel t b : @call A fuel TS t b (from_pair (OP, 2%Z)) = Some (@Ts2p_reg2 A (t + float_of_dec 273.15)%float b).
Proof. reflexivity. Qed.
Lemma p_region2 fuel f t y p : In f [TV; Spec.TH; TS] -> @call A fuel f t y (from_pair (OP, 2%Z)) = Some p ->
  wn 0 (float_of_dec 100.001) p \/ recovers L f 2 t y p.
Proof.
  intros Hf H. destruct f; cbn in Hf; try (exfalso; intuition discriminate); clear Hf.
  - rewrite tv2p in H. destruct (@Tv2p_reg2 A fuel _ y) as [r|] eqn:E; [|discriminate]. apply some_inj in H. rewrite <- H.
    destruct (@Tv2p2 A _ _ _ _ E) as [S|C]; [right|left; exact (p2_in _ _ C)].
    eapply solved_recovers; [|exact S]. reflexivity.
  - rewrite th2p in H. destruct (@Th2p_reg2 A fuel _ y) as [r|] eqn:E; [|discriminate]. apply some_inj in H. rewrite <- H.
    destruct (@Th2p2 A _ _ _ _ E) as [S|C]; [right|left; exact (p2_in _ _ C)].
    eapply solved_recovers; [|exact S]. reflexivity.
  - rewrite ts2p in H. apply some_inj in H. rewrite <- H.
    destruct (@Ts2p2 A (t + float_of_dec 273.15)%float y) as [S|C]; [right|left; exact (p2_in _ _ C)].
    eapply solved_recovers; [|exact S]. reflexivity.
Qed.

(* ---- pressures of region 1 ---- *)
Lemma th1p fuel t b : @call A fuel Spec.TH t b (from_pair (OP, 1%Z)) = Some (@Th2p_reg1 A (t + float_of_dec 273.15)%float b).
Proof. reflexivity. Qed.
Lemma ts1p fuel t b : @call A fuel TS t b (from_pair (OP, 1%Z)) = Some (@Ts2p_reg1 A (t + float_of_dec 273.15)%float b).
Proof. reflexivity. Qed.
Lemma shift_T t : within 0 350 t -> within TL (float_of_dec 647.096) (t + float_of_dec 273.15)%float.
Proof.
  intros W. fconst 0%float F0 V0. fconst 350%float F1 V1. fconst (float_of_dec 273.15) Fk Vk. fconst (float_of_dec 647.096) Fm Vm.
  apply within_val in W; [|assumption..]. destruct W as [Ft [W1 W2]]. 
  assert (X0 : val 0%float = 0) by (rewrite V0; simpl; lra). assert (X1 : val 350%float = 350) by (rewrite V1; simpl; lra).
  assert (Bk : 273 <= val TL <= 274) by (rewrite Vk; split; interval).
  destruct (fadd t TL Ft Fk) as [G W]; [apply small_1000; apply Rabs_le; lra|].
  destruct (fadd 0%float TL F0 Fk) as [G0 W0]; [apply small_1000; apply Rabs_le; lra|].
  destruct (fadd 350%float TL F1 Fk) as [G1 W3]; [apply small_1000; apply Rabs_le; lra|].
  assert (E0 : (0 + TL)%float = TL) by (vm_compute; reflexivity). rewrite E0 in W0.
  apply within_val; [assumption..|]. split; [exact G|]. rewrite W. split.
  - rewrite W0. apply rnd_mono. lra.
  - apply Rle_trans with (val (350 + TL)%float); [rewrite W3; apply rnd_mono; lra|].
    assert (E1 : (350 + TL)%float = TH) by (vm_compute; reflexivity). rewrite E1. fconst (float_of_dec 623.15) Fh Vh. rewrite Vh, Vm. interval.
Qed.
Lemma tx_p t : within 0 350 t -> @tx A t 0%float OP = @p_saturation A (t + float_of_dec 273.15)%float.
Proof.
  intros W. destruct (shift_T t W) as [W1 W2]. unfold tx, T_MAX4, T_MIN4. cbv zeta. cbn [Z.eqb OP OT OX Pos.eqb].
  change (@add A t (@lit A 273.15%dec)) with (t + TL)%float.
  change (@ltb A (@lit A 647.096%dec) (t + TL)%float) with (PrimFloat.ltb (float_of_dec 647.096) (t + TL)%float).
  change (@ltb A (t + TL)%float (@lit A 273.15%dec)) with (PrimFloat.ltb (t + TL)%float TL).
  rewrite (leb_ltb_f _ _ W1), (leb_ltb_f _ _ W2). reflexivity.
Qed.
Lemma p1_in t r : within 0 350 t -> @clamped A (@p_saturation A (t + float_of_dec 273.15)%float) (@P_MAX1 A) r ->
  wn (@tx A t 0%float OP) 100 r.
Proof.
  intros W C. rewrite (tx_p t W). destruct (psat_in _ (shift_T t W)) as [M1 M2].
  apply (clamped_within L); [|exact C]. exact M2.
Qed.
Lemma p_region1 fuel f t y p : In f [Spec.TH; TS] -> within 0 350 t -> @call A fuel f t y (from_pair (OP, 1%Z)) = Some p ->
  wn (@tx A t 0%float OP) 100 p \/ recovers L f 1 t y p.
Proof.
  intros Hf Ht H. destruct f; cbn in Hf; try (exfalso; intuition discriminate); clear Hf.
  - rewrite th1p in H. apply some_inj in H. rewrite <- H. left. apply p1_in; [exact Ht|]. exact (@Th2p1 A _ y).
  - rewrite ts1p in H. apply some_inj in H. rewrite <- H.
    destruct (@Ts2p1 A (t + float_of_dec 273.15)%float y) as [S|C]; [right|left; apply p1_in; assumption].
    eapply solved_recovers; [|exact S]. reflexivity.
Qed.
End F.

Lemma rnd_nonneg z : 0 <= z -> 0 <= rnd z.
Proof. intros H. rewrite <- (round_0 radix2 (FLT_exp (3 - FloatOps.emax - FloatOps.prec) FloatOps.prec) ZnearestE). apply rnd_mono. exact H. Qed.
Lemma ref_powi4_in : powi4_in RefLibm.
Proof.
  intros x [A1 A2]. split; [|apply ref_powi4_le; assumption].
  fconst 3%float F3 V3. fconst 0%float F0 V0. fconst 1%float F1 V1.
  pose proof (fin_between x _ _ F0 F3 A1 A2) as Fx.
  rewrite leb_val in A1, A2 by assumption. apply Rle_b_inv in A1, A2. rewrite V0 in A1. rewrite V3 in A2.
  assert (HB : 0 <= val x <= 301/100) by (split; [exact A1|eapply Rle_trans; [exact A2|interval]]).
  clear A1 A2. change (PrimFloat.leb 0 (1 * ((x * x) * (x * x)))%float = true).
  destruct (fmul x x Fx Fx ltac:(apply small_1000; apply Rabs_le; nra)) as [G1 W1].
  assert (P1 : 0 <= val (x * x)%float) by (rewrite W1; apply rnd_nonneg; nra).
  opn (xmul x x Fx Fx ltac:(smallv)) G1' W1'. 
  assert (Q1 : val (x * x)%float <= 10) by (rewrite W1'; interval).
  destruct (fmul _ _ G1 G1 ltac:(apply small_1000; apply Rabs_le; nra)) as [G2 W2].
  assert (P2 : 0 <= val ((x * x) * (x * x))%float) by (rewrite W2; apply rnd_nonneg; nra).
  destruct (xmul _ _ G1 G1 ltac:(apply small_1000; apply Rabs_le; nra)) as (d9 & e9 & (D9 & E9) & G2' & W2'). apply Rabs_le_inv in D9, E9.
  assert (Q2 : val ((x * x) * (x * x))%float <= 101) by (rewrite W2'; set (q := val (x * x)%float) in *; interval).
  assert (X1 : val 1%float = 1) by (rewrite V1; simpl; lra).
  destruct (fmul 1%float _ F1 G2 ltac:(apply small_1000; rewrite X1; apply Rabs_le; lra)) as [G3 W3].
  rewrite leb_val by assumption. apply Rle_b_true. rewrite W3, V0, X1. 
  eapply Rle_trans; [|apply rnd_nonneg; lra]. simpl; lra.
Qed.
