(* Termination of tv and th in binary64. *)
From Coq Require Import ZArith List Bool Reals Floats Lra Lia.
From Interval Require Import Tactic.
From Verif Require Import Num Constant Algo R4Sat Boundaries Reg1 Reg2 Reg5 Reg1Back Reg2Back Reg5Back Reg4 Region Api
  Spec LoopFacts TermFacts RealInst FloatInst NanFacts FloatOrder FloatErr RegionMap SatFloat.
Import ListNotations.
Open Scope R_scope.

(* ---- a strictly increasing integer rank of the floats ---- *)
Definition rank_SF (x : spec_float) : Z :=
  match x with
  | S754_nan => 2^64
  | S754_zero _ => 2^64
  | S754_infinity false => 2^65
  | S754_infinity true => 0
  | S754_finite false m e => 2^64 + ((e + 1074) * 2^52 + Zpos m)
  | S754_finite true m e => 2^64 - ((e + 1074) * 2^52 + Zpos m)
  end%Z.
Definition rank (x : float) : Z := rank_SF (Prim2SF x).

Lemma valid_fin s m e : SpecFloat.valid_binary FloatOps.prec FloatOps.emax (S754_finite s m e) = true ->
  (-1074 <= e <= 971 /\ Zpos m < 2^53 /\ (e = -1074 \/ 2^52 <= Zpos m))%Z.
Proof.
  cbn [SpecFloat.valid_binary]. unfold SpecFloat.bounded, SpecFloat.canonical_mantissa. intros H.
  apply andb_true_iff in H. destruct H as [H1 H2]. apply Zeq_bool_eq in H1. apply Zle_bool_imp_le in H2.
  unfold SpecFloat.fexp, SpecFloat.emin in H1. change FloatOps.prec with 53%Z in *. change FloatOps.emax with 1024%Z in *.
  assert (D : (2 ^ (Zpos (SpecFloat.digits2_pos m) - 1) <= Zpos m < 2 ^ Zpos (SpecFloat.digits2_pos m))%Z).
  { clear. induction m as [m IH|m IH|]; cbn [SpecFloat.digits2_pos].
    - rewrite Pos2Z.inj_succ. replace (Z.succ (Zpos (SpecFloat.digits2_pos m)) - 1)%Z with (Zpos (SpecFloat.digits2_pos m) - 1 + 1)%Z by lia.
      rewrite Z.pow_succ_r, Z.pow_add_r by lia. lia.
    - rewrite Pos2Z.inj_succ. replace (Z.succ (Zpos (SpecFloat.digits2_pos m)) - 1)%Z with (Zpos (SpecFloat.digits2_pos m) - 1 + 1)%Z by lia.
      rewrite Z.pow_succ_r, Z.pow_add_r by lia. lia.
    - cbn. lia. }
  set (d := Zpos (SpecFloat.digits2_pos m)) in *. clearbody d.
  assert (Hd : (d <= 53)%Z) by lia.
  split; [lia|]. split.
  - apply Z.lt_le_trans with (2 ^ d)%Z; [lia|]. apply Z.pow_le_mono_r; lia.
  - destruct (Z.eq_dec e (-1074)) as [|Ne]; [left; assumption|right].
    assert (d = 53)%Z by lia. subst d. exact (proj1 D).
Qed.

Lemma rank_lt x y : PrimFloat.ltb x y = true -> (rank x < rank y)%Z.
Proof.
  intros H. rewrite ltb_spec in H. unfold rank.
  assert (Vx := Prim2SF_valid x). assert (Vy := Prim2SF_valid y). revert H Vx Vy.
  generalize (Prim2SF x) (Prim2SF y). clear. intros x y H Vx Vy.
  destruct x as [sx|[]| |[] mx ex], y as [sy|[]| |[] my ey]; try discriminate H;
    repeat match goal with V : SpecFloat.valid_binary _ _ (S754_finite _ _ _) = true |- _ => apply valid_fin in V end;
    cbn [rank_SF]; try lia.
  - unfold SFltb, SFcompare in H. 
    destruct (Z.compare ex ey) eqn:E; try discriminate H.
    + apply Z.compare_eq in E. subst. destruct (Pos.compare_cont Eq mx my) eqn:E2; try discriminate H.
      change (mx > my)%positive in E2. lia.
    + change (ex > ey)%Z in E. lia.
  - unfold SFltb, SFcompare in H.
    destruct (Z.compare ex ey) eqn:E; try discriminate H.
    + apply Z.compare_eq in E. subst. destruct (Pos.compare_cont Eq mx my) eqn:E2; try discriminate H.
      change (mx < my)%positive in E2. lia.
    + change (ex < ey)%Z in E. lia.
Qed.
Lemma rank_range x : (0 <= rank x <= 2^65)%Z.
Proof.
  unfold rank. assert (V := Prim2SF_valid x). revert V. generalize (Prim2SF x). clear. intros x V.
  destruct x as [sx|[]| |[] mx ex]; cbn [rank_SF]; try lia; apply valid_fin in V; lia.
Qed.

(* ---- the upper pressure limit of region 2 ---- *)
(* powi(x, 4) is at most 100 for 0 <= x <= 3 *)
Definition powi4_le (L : Libm) : Prop := forall x,
  PrimFloat.leb 0 x = true -> PrimFloat.leb x 3 = true -> PrimFloat.leb (l_powi L x 4) 100 = true.

Lemma leb_ordered x y : PrimFloat.leb x y = true -> ordered x /\ ordered y.
Proof.
  intros H. rewrite leb_spec in H. unfold ordered.
  split.
  - destruct (PrimFloat.is_nan x) eqn:E; [|reflexivity]. apply nan_sf in E. rewrite E in H. discriminate H.
  - destruct (PrimFloat.is_nan y) eqn:E; [|reflexivity]. apply nan_sf in E. rewrite E in H. destruct (Prim2SF x) as [|[]| |[]]; discriminate H.
Qed.
Lemma leb_trans x y z : PrimFloat.leb x y = true -> PrimFloat.leb y z = true -> PrimFloat.leb x z = true.
Proof.
  intros A B. destruct (leb_ordered _ _ A), (leb_ordered _ _ B).
  rewrite emb_le in * by assumption. apply Rle_b_inv in A, B. apply Rle_b_true. lra.
Qed.
Lemma leb_ltb_f x y : PrimFloat.leb x y = true -> PrimFloat.ltb y x = false.
Proof.
  intros A. destruct (leb_ordered _ _ A). rewrite emb_le in A by assumption. rewrite emb_lt by assumption.
  apply Rle_b_inv in A. apply Rlt_b_false. exact A.
Qed.

Lemma psat_le L T : powi4_le L -> PrimFloat.leb (float_of_dec 273.15) T = true -> PrimFloat.leb T (float_of_dec 647.096) = true ->
  PrimFloat.leb (@p_saturation (FArith L) T) 100 = true.
Proof.
  intros HL A B. rewrite (psat_is_root L T (leb_ltb_f _ _ A) (leb_ltb_f _ _ B)).
  destruct (root_fin L T A B) as (F & V1 & V2).
  apply HL; rewrite leb_val; try assumption; try (apply fin_of_const; vm_compute; reflexivity); apply Rle_b_true.
  - rewrite (val_zero 0%float false) by reflexivity. exact V1.
  - fconst 3%float F3 V3. rewrite V3. eapply Rle_trans; [exact V2|interval].
Qed.

Lemma b23_le L T : PrimFloat.leb (float_of_dec 273.15) T = true -> PrimFloat.leb T (float_of_dec 863.15) = true ->
  PrimFloat.leb (@B23_T2p (FArith L) T) 350 = true.
Proof.
  intros A B.
  fconst (float_of_dec 273.15) Fl Vl. fconst (float_of_dec 863.15) Fh Vh.
  assert (FT : fin T) by (apply (fin_between T _ _ Fl Fh A B)).
  rewrite leb_val in A, B by assumption. apply Rle_b_inv in A, B.
  rewrite Vl in A. rewrite Vh in B.
  assert (HB : 273 <= val T <= 864) by (split; [eapply Rle_trans; [|exact A]|eapply Rle_trans; [exact B|]]; interval).
  clear A B. unfold B23_T2p, B23_T2p_n23. cbn [nth lit add mul FArith].
  fconst (float_of_dec 0.34805185628969e3) F0 V0. fconst (float_of_dec (-0.11671859879975e1)) F1 V1. fconst (float_of_dec 0.10192970039326e-2) F2 V2.
  opn (xmul _ T F2 FT ltac:(rewrite V2; smallv)) G1 W1. rewrite V2 in W1.
  opn (xadd _ _ F1 G1 ltac:(rewrite V1, W1; smallv)) G2 W2. rewrite V1, W1 in W2.
  opn (xmul _ T G2 FT ltac:(rewrite W2; smallv)) G3 W3. rewrite W2 in W3.
  opn (xadd _ _ F0 G3 ltac:(rewrite V0, W3; smallv)) G4 W4. rewrite V0, W3 in W4.
  fconst 350%float F5 V5. rewrite leb_val by assumption. apply Rle_b_true. rewrite W4, V5. interval.
Qed.

Lemma T2pmax_le L T : powi4_le L -> PrimFloat.leb (@T2pmax_reg2 (FArith L) T) 350 = true.
Proof.
  intros HL. assert (C : PrimFloat.leb 100 350 = true) by reflexivity.
  unfold T2pmax_reg2. cbv zeta. cbn [leb ltb lit FArith].
  destruct (PrimFloat.leb (float_of_dec 273.15) T && PrimFloat.leb T (float_of_dec 623.15))%bool eqn:E1.
  { apply andb_true_iff in E1. destruct E1 as [A B]. apply (leb_trans _ 100); [|exact C]. apply psat_le; [exact HL|exact A|].
    apply (leb_trans _ _ _ B). vm_compute. reflexivity. }
  destruct (PrimFloat.ltb (float_of_dec 623.15) T && PrimFloat.leb T (float_of_dec 863.15))%bool eqn:E2.
  { apply andb_true_iff in E2. destruct E2 as [A B]. apply b23_le; [|exact B].
    destruct (leb_ordered _ _ B) as [O _]. assert (O1 : ordered (float_of_dec 273.15)) by (vm_compute; reflexivity).
    assert (O2 : ordered (float_of_dec 623.15)) by (vm_compute; reflexivity).
    apply (leb_trans _ (float_of_dec 623.15)); [vm_compute; reflexivity|].
    rewrite emb_lt in A by assumption. rewrite emb_le by assumption. apply Rlt_b_inv in A. apply Rle_b_true. lra. }
  match goal with |- context [if ?b then _ else _] => destruct b end; vm_compute; reflexivity.
Qed.

(* ---- the searches of region 2 and 5 end ---- *)
Section F.
Variable L : Libm.
Hypothesis HL : powi4_le L.
Lemma traj2 : PrimFloat.leb 350 (Nat.iter (S 400) (@next2 (FArith L)) (@mul (FArith L) (@P_MIN2 (FArith L)) (@lit (FArith L) 5.0%dec))) = true.
Proof. vm_compute. reflexivity. Qed.
Lemma traj5 : @leb (FArith L) (@P_MAX5 (FArith L)) (Nat.iter (S 30) (@next5 (FArith L)) (@mul (FArith L) (@lit (FArith L) 10.0%dec) (@P_MIN5 (FArith L)))) = true.
Proof. vm_compute. reflexivity. Qed.

Lemma Tv2_some fuel T v : (500 <= fuel)%positive -> exists r, @Tv2p_reg2 (FArith L) fuel T v = Some r.
Proof.
  intros Hf. unfold Tv2p_reg2. cbv zeta.
  match goal with |- context [if ?b then _ else _] => destruct b end; [eauto|].
  match goal with |- context [if ?b then _ else _] => destruct b end; [eauto|].
  match goal with |- context [@bracket_reg2 _ ?fn ?fu ?t ?y ?pm ?p1 ?p2 ?y1 ?y2 ?b] =>
    destruct (@bracket2_some (FArith L) fn t y pm 400 fu p1 p2 y1 y2 b) as [[r|[[[a b0] c] d]] ->]; eauto; [lia|] end.
  right. apply (leb_trans _ 350); [apply T2pmax_le; exact HL|exact traj2].
Qed.
Lemma Th2_some fuel T v : (500 <= fuel)%positive -> exists r, @Th2p_reg2 (FArith L) fuel T v = Some r.
Proof.
  intros Hf. unfold Th2p_reg2. cbv zeta.
  match goal with |- context [if ?b then _ else _] => destruct b end; [eauto|].
  match goal with |- context [if ?b then _ else _] => destruct b end; [eauto|].
  match goal with |- context [@bracket_reg2 _ ?fn ?fu ?t ?y ?pm ?p1 ?p2 ?y1 ?y2 ?b] =>
    destruct (@bracket2_some (FArith L) fn t y pm 400 fu p1 p2 y1 y2 b) as [[r|[[[a b0] c] d]] ->]; eauto; [lia|] end.
  right. apply (leb_trans _ 350); [apply T2pmax_le; exact HL|exact traj2].
Qed.
Lemma Tv5_some fuel T v : (500 <= fuel)%positive -> exists r, @Tv2p_reg5 (FArith L) fuel T v = Some r.
Proof.
  intros Hf. unfold Tv2p_reg5. cbv zeta.
  replace (if @ltb (FArith L) (@P_MAX5 (FArith L)) (@mul (FArith L) (@lit (FArith L) 10.0%dec) (@P_MIN5 (FArith L))) then @P_MAX5 (FArith L) else @mul (FArith L) (@lit (FArith L) 10.0%dec) (@P_MIN5 (FArith L))) with (@mul (FArith L) (@lit (FArith L) 10.0%dec) (@P_MIN5 (FArith L)))
    by (vm_compute; reflexivity).
  match goal with |- context [if ?b then _ else _] => destruct b end; [eauto|].
  match goal with |- context [if ?b then _ else _] => destruct b end; [eauto|].
  match goal with |- context [@bracket_reg5 _ ?fu ?t ?y ?p1 ?p2 ?y1 ?y2 ?b] =>
    destruct (@bracket5_some (FArith L) t y 30 fu p1 p2 y1 y2 b) as [[r|[[[a b0] c] d]] ->]; [lia|right; exact traj5|eauto|eauto] end.
Qed.

Definition big : positive := 2^66.
Lemma th_region_some fuel t h : (big <= fuel)%positive -> exists r, @th_sub_region (FArith L) fuel t h = Some r.
Proof.
  intros Hf. unfold th_sub_region. cbv zeta.
  match goal with |- context [if ?b then _ else _] => destruct b end; [eauto|].
  match goal with |- exists r, (let '(a, b) := ?x in _) = _ => destruct x as [x1 x2] end.
  match goal with |- exists r, (let '(a, b) := ?x in _) = _ => destruct x as [[[y1 y2] y3] y4] end.
  match goal with |- context [if ?b then _ else _] => destruct b end; [eauto|].
  match goal with |- context [if ?b then _ else _] => destruct b end.
  - match goal with |- context [if ?b then _ else _] => destruct b end; [|eauto].
    match goal with |- context [@th_Hmin _ ?fu ?T ?h ?p] =>
      destruct (@Hmin_some (FArith L) rank (2^65)%Z T h p fu rank_lt rank_range) as [r ->] end.
    + unfold big in Hf. lia.
    + match goal with |- context [if ?b then _ else _] => destruct b end; eauto.
  - repeat (match goal with |- context [if ?b then _ else _] => destruct b end; [eauto|]). eauto.
Qed.

Lemma pair_some (v1 v2 : float) o fr f1 f2 f3 f4 f5 reg :
  (exists r, fr v1 v2 = Some r) -> (forall o, exists v, f1 v1 v2 o = Some v) -> (forall o, exists v, f2 v1 v2 o = Some v) ->
  (forall o, exists v, f3 v1 v2 o = Some v) -> (forall o, exists v, f4 v1 v2 o = Some v) -> (forall o, exists v, f5 v1 v2 o = Some v) ->
  exists v, @pair_properties_o (FArith L) v1 v2 o fr f1 f2 f3 f4 f5 reg = Some v.
Proof.
  intros [r Hr] H1 H2 H3 H4 H5. unfold pair_properties_o.
  assert (E : exists r, (if Z.eqb reg REGION_NONE then fr v1 v2 else Some reg) = Some r) by (destruct (Z.eqb reg REGION_NONE); eauto).
  destruct E as [r' ->].
  repeat (match goal with |- context [if ?b then _ else _] => destruct b end; eauto).
Qed.

Lemma returns fuel f a b args : f <> HS -> (big <= fuel)%positive -> exists v, @call (FArith L) fuel f a b args = Some v.
Proof.
  intros Hf Hb. assert (Hb' : (500 <= fuel)%positive) by (unfold big in Hb; lia).
  destruct f; cbn [call]; eauto; try congruence; unfold tv, th; destruct (o_id_reg_info args) as [o reg];
    (match goal with |- context [if ?b then _ else _] => destruct b end; [eauto|]);
    (match goal with |- context [if ?b then _ else _] => destruct b end; [eauto|]); apply pair_some; intros; eauto; try (unfold tot2; eauto).
  - unfold tv_reg2. edestruct Tv2_some as [r ->]; eauto.
  - unfold tv_reg5. destruct (Z.eqb _ _); [eauto|]. edestruct Tv5_some as [r ->]; eauto.
  - apply th_region_some. exact Hb.
  - unfold th_reg2. edestruct Th2_some as [r ->]; eauto.
Qed.
End F.

Lemma ref_powi4_le : powi4_le RefLibm.
Proof.
  intros x A B. fconst 3%float F3 V3. fconst 0%float F0 V0. fconst 1%float F1 V1. fconst 100%float F9 V9.
  pose proof (fin_between x _ _ F0 F3 A B) as Fx.
  rewrite leb_val in A, B by assumption. apply Rle_b_inv in A, B. rewrite V0 in A. rewrite V3 in B.
  assert (HB : 0 <= val x <= 301/100) by (split; [exact A|eapply Rle_trans; [exact B|interval]]).
  clear A B. 
  change (PrimFloat.leb (1 * ((x * x) * (x * x)))%float 100 = true).
  opn (xmul x x Fx Fx ltac:(smallv)) G1 W1.
  opn (xmul _ _ G1 G1 ltac:(rewrite W1; smallv)) G2 W2.
  opn (xmul 1%float _ F1 G2 ltac:(rewrite V1, W2, W1; smallv)) G3 W3.
  rewrite leb_val by assumption. apply Rle_b_true. rewrite W3, V1, W2, W1, V9. interval.
Qed.
