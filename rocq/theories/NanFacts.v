(* NaN inputs: every guard that mentions a NaN is false, so no region is selected. *)
From Coq Require Import ZArith List Bool Lia Floats SpecFloat.
From Verif Require Import Num Constant Region RegionCodes Api Spec Control FloatInst.
Import ListNotations.
Open Scope num_scope.

Lemma if_false {A : Type} (P : A -> Prop) (c : bool) (a b : A) : c = false -> P b -> P (if c then a else b).
Proof. intros ->; auto. Qed.

(* an element that compares false with everything, and stays such under arithmetic *)
Record NanLike {N : Arith} (U : num -> Prop) : Prop := {
  u_lt_l : forall x y, U x -> (x <? y) = false;
  u_lt_r : forall x y, U y -> (x <? y) = false;
  u_le_l : forall x y, U x -> (x <=? y) = false;
  u_le_r : forall x y, U y -> (x <=? y) = false;
  u_eq_l : forall x y, U x -> (x =? y) = false;
  u_eq_r : forall x y, U y -> (x =? y) = false;
  u_add : forall x y, U x -> U (x + y);
  u_sub : forall x y, U x -> U (x - y);
  u_abs : forall x, U x -> U (nabs x);
  u_div : forall x y, U x -> U (x / y) }.

Ltac solveU HU :=
  first [ assumption
        | apply (u_add _ HU); solveU HU | apply (u_sub _ HU); solveU HU
        | apply (u_abs _ HU); solveU HU | apply (u_div _ HU); solveU HU ].
Ltac nanb HU :=
  lazymatch goal with
  | |- (_ && _) = false => apply andb_false_iff; first [ left; nanb HU | right; nanb HU ]
  | |- (_ || _) = false => apply orb_false_iff; split; nanb HU
  | |- ltb _ _ = false => first [ apply (u_lt_l _ HU); solveU HU | apply (u_lt_r _ HU); solveU HU ]
  | |- leb _ _ = false => first [ apply (u_le_l _ HU); solveU HU | apply (u_le_r _ HU); solveU HU ]
  | |- eqb _ _ = false => first [ apply (u_eq_l _ HU); solveU HU | apply (u_eq_r _ HU); solveU HU ]
  end.

Ltac nsweep HU :=
  lazymatch goal with
  | |- ?P (if ?c then ?a else ?b) =>
      first [ refine (if_false P c a b _ _); [solve [nanb HU]|]; nsweep HU | apply if_both; nsweep HU ]
  | |- ?P (let k := ?v in @?B k) =>
      lazymatch type of v with
      | unit -> _ => refine (let_such P (fun k => forall u, P (k u)) v B _ _)
      | _ -> _ -> _ -> _ -> _ -> _ => refine (let_such P (fun k => forall a b c d e, P (k a b c d e)) v B _ _)
      | _ -> _ -> _ -> _ -> _ => refine (let_such P (fun k => forall a b c d, P (k a b c d)) v B _ _)
      | _ -> _ -> _ => refine (let_such P (fun k => forall a b, P (k a b)) v B _ _)
      | _ => lazymatch v with
             | add _ _ => lazymatch type of HU with NanLike ?U =>
                 first [ refine (let_such P U v B _ _); [solve [solveU HU]|] | refine (let_any P v B _) ] end
             | _ => refine (let_any P v B _)
             end
      end; intros; cbv beta in *; nsweep HU
  | |- ?P (match ?x with (_, _) => _ end) => destruct x; nsweep HU
  | |- _ => first [ assumption | match goal with H : forall _, _ |- _ => apply H end | idtac ]
  end.

Section Any.
Context {N : Arith} (U : num -> Prop) (HU : NanLike U).

(* not a region number *)
Definition no_region (r : Z) : Prop := ~ (1 <= r <= 5)%Z.
Lemma nrV : no_region INVALID_VALUE. Proof. unfold no_region, INVALID_VALUE; lia. Qed.
Lemma nrP : no_region INVALID_P. Proof. unfold no_region, INVALID_P; lia. Qed.
Lemma nrT : no_region INVALID_T. Proof. unfold no_region, INVALID_T; lia. Qed.
Lemma nrS : no_region INVALID_S. Proof. unfold no_region, INVALID_S; lia. Qed.
Local Hint Resolve nrV nrP nrT nrS : core.

Ltac go := intros H; pose proof nrV; pose proof nrP; pose proof nrT; pose proof nrS.
Lemma pT_nan1 p T : U p -> no_region (pT_sub_region p T).
Proof. go; cbv beta delta [pT_sub_region]; nsweep HU. Qed.
Lemma pT_nan2 p T : U T -> no_region (pT_sub_region p T).
Proof. go; cbv beta delta [pT_sub_region]; nsweep HU. Qed.
Lemma ph_nan1 p h : U p -> no_region (ph_sub_region p h).
Proof. go; cbv beta delta [ph_sub_region]; nsweep HU. Qed.
Lemma ph_nan2 p h : U h -> no_region (ph_sub_region p h).
Proof. go; cbv beta delta [ph_sub_region]; nsweep HU. Qed.
Lemma ps_nan1 p s : U p -> no_region (ps_sub_region p s).
Proof. go; cbv beta delta [ps_sub_region]; nsweep HU. Qed.
Lemma ps_nan2 p s : U s -> no_region (ps_sub_region p s).
Proof. go; cbv beta delta [ps_sub_region]; nsweep HU. Qed.
Lemma hs_nan1 h s : U h -> no_region (hs_sub_region h s).
Proof. go; cbv beta delta [hs_sub_region]; nsweep HU. Qed.
Lemma hs_nan2 h s : U s -> no_region (hs_sub_region h s).
Proof. go; cbv beta delta [hs_sub_region]; nsweep HU. Qed.
Lemma pv_nan1 p v : U p -> no_region (pv_sub_region p v).
Proof. go; cbv beta delta [pv_sub_region]; nsweep HU. Qed.
Lemma pv_nan2 p v : U v -> no_region (pv_sub_region p v).
Proof. go; cbv beta delta [pv_sub_region]; nsweep HU. Qed.
Lemma tv_nan1 t v : U t -> no_region (tv_sub_region t v).
Proof. go; cbv beta delta [tv_sub_region]; nsweep HU. Qed.
Lemma tv_nan2 t v : U v -> no_region (tv_sub_region t v).
Proof. go; cbv beta delta [tv_sub_region]; nsweep HU. Qed.
Lemma ts_nan1 t s : U t -> no_region (ts_sub_region t s).
Proof. go; cbv beta delta [ts_sub_region]; nsweep HU. Qed.
Lemma ts_nan2 t s : U s -> no_region (ts_sub_region t s).
Proof. go; cbv beta delta [ts_sub_region]; nsweep HU. Qed.

Definition no_region_o (o : option Z) : Prop := exists r, o = Some r /\ no_region r.
Lemma nro r : no_region r -> no_region_o (Some r). Proof. exists r; auto. Qed.
Lemma th_nan1 fuel t h : U t -> no_region_o (th_sub_region fuel t h).
Proof. go; cbv beta delta [th_sub_region]; nsweep HU; auto using nro. Qed.
Lemma th_nan2 fuel t h : U h -> no_region_o (th_sub_region fuel t h).
Proof. go; cbv beta delta [th_sub_region]; nsweep HU; auto using nro. Qed.

Lemma region_of_nan fuel f a b : U a \/ U b -> exists r, region_of fuel f a b = Some r /\ no_region r.
Proof.
  intros H; destruct f; cbn [region_of];
  try (eexists; split; [reflexivity|]).
  - destruct H; [apply pT_nan1; assumption|apply pT_nan2, (u_add _ HU); assumption].
  - destruct H; [apply ph_nan1|apply ph_nan2]; assumption.
  - destruct H; [apply ps_nan1|apply ps_nan2]; assumption.
  - destruct H; [apply hs_nan1|apply hs_nan2]; assumption.
  - destruct H; [apply pv_nan1|apply pv_nan2]; assumption.
  - destruct H; [apply tv_nan1|apply tv_nan2]; assumption.
  - destruct H; [apply th_nan1|apply th_nan2]; assumption.
  - destruct H; [apply ts_nan1|apply ts_nan2]; assumption.
Qed.

Lemma nan_error fuel f a b : U a \/ U b ->
  exists c, In c (error_codes f) /\ call fuel f a b (from_i32 OR) = Some (ofZ c) /\
    forall o, ~ is_input f o ->
      call fuel f a b (from_i32 o) = Some (ofZ (if Z.eqb o OX then INVALID_VALUE else c)).
Proof.
  intros H. destruct (region_of_nan fuel f a b H) as (c & Hc & Hn).
  exists c. pose proof (region_of_codes _ _ _ _ _ Hc) as Hin.
  apply in_app_or in Hin. destruct Hin as [Hin|Hin].
  { exfalso. apply Hn. cbn in Hin. lia. }
  split; [exact Hin|]. assert (HR : call fuel f a b (from_i32 OR) = Some (ofZ c)).
  { rewrite region_query, Hc. reflexivity. }
  split; [exact HR|].
  intros o Ho. rewrite call_dispatch_auto. unfold dispatch, is_input in *.
  rewrite (proj2 (Z.eqb_neq o (id1 f))) by tauto. rewrite (proj2 (Z.eqb_neq o (id2 f))) by tauto.
  rewrite Z.eqb_refl, Hc. unfold no_region in Hn.
  destruct (Z.eqb_spec o OR) as [->|HO].
  - reflexivity.
  - destruct (Z.eqb_spec o OX) as [->|HX]; [zdec; reflexivity|apply prop_of_other; assumption].
Qed.
End Any.

(* ---- binary64 ---- *)
Lemma nan_sf x : PrimFloat.is_nan x = true -> Prim2SF x = S754_nan.
Proof.
  unfold PrimFloat.is_nan. rewrite eqb_spec.
  destruct (Prim2SF x) as [s|[]| |s m e]; cbn; try discriminate; [reflexivity|].
  unfold SFeqb, SFcompare. destruct s; rewrite Z.compare_refl, ?Pos.compare_cont_refl;
  try rewrite Pos.compare_refl; cbn; discriminate.
Qed.
Lemma sf_nan x : Prim2SF x = S754_nan -> PrimFloat.is_nan x = true.
Proof. intros H. unfold PrimFloat.is_nan. rewrite eqb_spec, H. reflexivity. Qed.

Lemma float_nanlike L : @NanLike (FArith L) (fun x : float => PrimFloat.is_nan x = true).
Proof.
  constructor; cbn.
  - intros x y H. rewrite ltb_spec, (nan_sf _ H). reflexivity.
  - intros x y H. rewrite ltb_spec, (nan_sf _ H). destruct (Prim2SF x) as [|[]| |[]]; reflexivity.
  - intros x y H. rewrite leb_spec, (nan_sf _ H). reflexivity.
  - intros x y H. rewrite leb_spec, (nan_sf _ H). destruct (Prim2SF x) as [|[]| |[]]; reflexivity.
  - intros x y H. rewrite eqb_spec, (nan_sf _ H). reflexivity.
  - intros x y H. rewrite eqb_spec, (nan_sf _ H). destruct (Prim2SF x) as [|[]| |[]]; reflexivity.
  - intros x y H. apply sf_nan. rewrite add_spec, (nan_sf _ H). reflexivity.
  - intros x y H. apply sf_nan. rewrite sub_spec, (nan_sf _ H). reflexivity.
  - intros x H. apply sf_nan. rewrite abs_spec, (nan_sf _ H). reflexivity.
  - intros x y H. apply sf_nan. rewrite div_spec, (nan_sf _ H). reflexivity.
Qed.

(* px, tx, hx, sx: the range tests are of the form "outside", so NaN passes *)
Section Quality.
Variable L : Libm.
Let N := FArith L.
Local Existing Instance N.
Let U := fun x : float => PrimFloat.is_nan x = true.

Lemma px_nan (p x : float) : PrimFloat.is_nan p = true ->
  @orb (PrimFloat.ltb x (float_of_dec 0.0)) (PrimFloat.ltb (float_of_dec 1.0) x) = false ->
  @px (FArith L) p x OP = p /\ @px (FArith L) p x OX = x.
Proof.
  intros H Hx. apply orb_false_iff in Hx. destruct Hx as [Hx1 Hx2].
  pose proof (float_nanlike L) as HU.
  destruct (@px_inside (FArith L) p x) as (A & B & _); [|split; assumption].
  rewrite (u_lt_l _ HU p _ H), (u_lt_r _ HU _ p H). cbn [orb]. apply orb_false_iff; split; assumption.
Qed.
Lemma hx_nan (h x : float) : PrimFloat.is_nan h = true ->
  @orb (PrimFloat.ltb x (float_of_dec 0.0)) (PrimFloat.ltb (float_of_dec 1.0) x) = false ->
  @hx (FArith L) h x OH = h /\ @hx (FArith L) h x OX = x.
Proof.
  intros H Hx. apply orb_false_iff in Hx. destruct Hx as [Hx1 Hx2].
  pose proof (float_nanlike L) as HU.
  destruct (@hx_inside (FArith L) h x) as (A & B & _); [|split; assumption].
  rewrite (u_lt_l _ HU h _ H), (u_lt_r _ HU _ h H). cbn [orb]. apply orb_false_iff; split; assumption.
Qed.
Lemma sx_nan (s x : float) : PrimFloat.is_nan s = true ->
  @orb (PrimFloat.ltb x (float_of_dec 0.0)) (PrimFloat.ltb (float_of_dec 1.0) x) = false ->
  @sx (FArith L) s x OS = s /\ @sx (FArith L) s x OX = x.
Proof.
  intros H Hx. apply orb_false_iff in Hx. destruct Hx as [Hx1 Hx2].
  pose proof (float_nanlike L) as HU.
  destruct (@sx_inside (FArith L) s x) as (A & B & _); [|split; assumption].
  rewrite (u_lt_l _ HU s _ H), (u_lt_r _ HU _ s H). cbn [orb]. apply orb_false_iff; split; assumption.
Qed.
End Quality.

Lemma nan_neq (x : float) z : PrimFloat.is_nan x = true -> PrimFloat.is_nan (float_of_Z z) = false -> x <> float_of_Z z.
Proof. intros A B E. rewrite E in A. congruence. Qed.
Lemma px_nan_refuted (L : Libm) : exists (p x : float) (o : Z),
  PrimFloat.is_nan p = true /\ @px (FArith L) p x o <> float_of_Z (-9999).
Proof.
  exists nan, 0%float, OP. split; [reflexivity|].
  rewrite (proj1 (px_nan L nan 0%float eq_refl eq_refl)). apply nan_neq; vm_compute; reflexivity.
Qed.
Lemma hx_nan_refuted (L : Libm) : exists (h x : float) (o : Z),
  PrimFloat.is_nan h = true /\ @hx (FArith L) h x o <> float_of_Z (-9999).
Proof.
  exists nan, 0%float, OH. split; [reflexivity|].
  rewrite (proj1 (hx_nan L nan 0%float eq_refl eq_refl)). apply nan_neq; vm_compute; reflexivity.
Qed.
Lemma sx_nan_refuted (L : Libm) : exists (s x : float) (o : Z),
  PrimFloat.is_nan s = true /\ @sx (FArith L) s x o <> float_of_Z (-9999).
Proof.
  exists nan, 0%float, OS. split; [reflexivity|].
  rewrite (proj1 (sx_nan L nan 0%float eq_refl eq_refl)). apply nan_neq; vm_compute; reflexivity.
Qed.
Lemma tx_nan_refuted (L : Libm) : exists (t x : float) (o : Z), o <> OT /\ o <> OX /\
  PrimFloat.is_nan t = true /\ @tx (FArith L) t x o <> float_of_Z (-9999).
Proof.
  exists nan, 0%float, 99%Z. split; [discriminate|]. split; [discriminate|]. split; [reflexivity|].
  rewrite (@tx_unknown (FArith L)).
  - vm_compute. intros E. apply (f_equal Prim2SF) in E. vm_compute in E. discriminate E.
  - right. lia.
  - pose proof (float_nanlike L) as HU.
    assert (H : PrimFloat.is_nan (@add (FArith L) nan (lit 273.15%dec)) = true) by (apply (u_add _ HU); reflexivity).
    rewrite (u_lt_l _ HU _ _ H), (u_lt_r _ HU _ _ H). reflexivity.
Qed.
