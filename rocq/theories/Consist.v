(* Density/volume and "one state" consistency of the two-property functions. *)
From Coq Require Import ZArith List Bool Lia.
From Verif Require Import Num Constant Transport Reg1 Reg2 Reg3Td Reg5 Reg1Back Reg2Back Reg3V Reg3 Reg4 Reg5Back Region Api
  Spec Control.
Import ListNotations.
Open Scope num_scope.

(* open the dispatch layer and the region functions, nothing below *)
Ltac open_regions :=
  cbv beta iota zeta delta [id1 id2 prop_of OP OT OD OV OH OS OX OR REGION_NONE Z.eqb Pos.eqb orb
    pT_reg3 ph_reg1 ph_reg2 ph_reg3 ph_reg4 ph_reg5 ps_reg1 ps_reg2 ps_reg3 ps_reg4 ps_reg5
    hs_reg1 hs_reg2 hs_reg3 hs_reg4 hs_reg5 pv_reg1 pv_reg2 pv_reg3 pv_reg4 pv_reg5
    tv_reg1 tv_reg2 tv_reg3 tv_reg4 tv_reg5 th_reg1 th_reg2 th_reg3 th_reg4 th_reg5
    ts_reg1 ts_reg2 ts_reg3 ts_reg4 ts_reg5].

Section Any.
Context {N : Arith}.

Lemma pT1_d p T : pT_reg1 p T OD = #1.0 / pT_reg1 p T OV. Proof. reflexivity. Qed.
Lemma pT2_d p T : pT_reg2 p T OD = #1.0 / pT_reg2 p T OV. Proof. reflexivity. Qed.
Lemma pT5_d p T : pT_reg5 p T OD = #1.0 / pT_reg5 p T OV. Proof. reflexivity. Qed.

Lemma density_volume fuel f a b r v :
  In (f, r) (list_prod [PT; PH; PS; HS] [1; 2; 3; 5]%Z ++ list_prod [TH; TS] [1; 2; 5]%Z) ->
  call fuel f a b (from_pair (OV, r)) = Some v ->
  call fuel f a b (from_pair (OD, r)) = Some (#1.0 / v).
Proof.
  intros Hf. rewrite !call_dispatch; unfold dispatch. cbn in Hf.
  repeat (destruct Hf as [E|Hf]; [injection E as <- <-; revert v; 
    open_regions; intros v H;
    try (destruct (Th2p_reg2 _ _ _) as [p|]; [|discriminate H]);
    injection H as <-; f_equal; first [reflexivity | apply pT1_d | apply pT2_d | apply pT5_d ]|]).
  contradiction.
Qed.

Lemma density_of_input fuel f a b r :
  In (f, r) [(TV, 1); (TV, 3); (TV, 5); (PV, 3)]%Z ->
  call fuel f a b (from_pair (OD, r)) = Some (#1.0 / b).
Proof.
  intros Hf. rewrite !call_dispatch; unfold dispatch. cbn in Hf.
  repeat (destruct Hf as [E|Hf]; [injection E as <- <-; reflexivity|]). contradiction.
Qed.

Lemma volume_of_density fuel f a b d :
  In f [TH; TS] -> call fuel f a b (from_pair (OD, 3%Z)) = Some d ->
  call fuel f a b (from_pair (OV, 3%Z)) = Some (#1.0 / d).
Proof.
  intros Hf. rewrite !call_dispatch; unfold dispatch. cbn in Hf.
  repeat (destruct Hf as [<-|Hf]; [open_regions; intros H; injection H as <-; reflexivity|]). contradiction.
Qed.

(* ---- one state behind every property of a call ---- *)
Ltac open_calls o :=
  rewrite !call_dispatch; unfold dispatch;
  cbv beta iota delta [id1 id2] in *.
Ltac neqb H := apply Z.eqb_neq in H.

(* temperature given: the pressure found by the call determines the state *)
Lemma state_TP fuel f a b r p :
  In (f, r) ((TV, 2%Z) :: list_prod [TH; TS] [1; 2; 5]%Z) ->
  call fuel f a b (from_pair (OP, r)) = Some p ->
  forall o, ~ is_input f o -> o <> OP ->
  call fuel f a b (from_pair (o, r)) = call fuel PT p a (from_pair (o, r)).
Proof.
  intros Hf HP o Hi Ho. revert HP. rewrite !call_dispatch; unfold dispatch, is_input in *.
  assert (A1 : Z.eqb o (id1 f) = false) by (apply Z.eqb_neq; tauto).
  assert (A2 : Z.eqb o (id2 f) = false) by (apply Z.eqb_neq; tauto).
  assert (A3 : Z.eqb o OP = false) by (apply Z.eqb_neq; tauto).
  rewrite A1, A2. cbn in Hf.
  change (id1 PT) with OP; change (id2 PT) with OT; rewrite A3.
  assert (A4 : Z.eqb o OT = false).
  { repeat (destruct Hf as [E|Hf]; [injection E as <- <-; exact A1|]). contradiction. }
  rewrite A4. clear A1 A2 Hi Ho A4.
  repeat (destruct Hf as [E|Hf]; [injection E as <- <-; revert A3; 
    open_regions; intros A3;
    (destruct o as [|o|o]; [discriminate A3| |];
     try match goal with |- context [Tv2p_reg2 ?x ?y ?z] => destruct (Tv2p_reg2 x y z) as [q|]; [|discriminate] end;
     try match goal with |- context [Th2p_reg2 ?x ?y ?z] => destruct (Th2p_reg2 x y z) as [q|]; [|discriminate] end;
     intros H; injection H as <-; reflexivity)|]).
  contradiction.
Qed.

Lemma state_TP_tv fuel a b r p :
  r = 1%Z \/ r = 5%Z ->
  call fuel TV a b (from_pair (OP, r)) = Some p ->
  forall o, ~ is_input TV o -> o <> OP -> o <> OD ->
  call fuel TV a b (from_pair (o, r)) = call fuel PT p a (from_pair (o, r)).
Proof.
  intros Hr HP o Hi Ho Hd. revert HP. rewrite !call_dispatch; unfold dispatch, is_input in *.
  cbn [id1 id2] in *.
  rewrite (proj2 (Z.eqb_neq o OT)) by tauto. rewrite (proj2 (Z.eqb_neq o OV)) by tauto.
  pose proof (proj2 (Z.eqb_neq o OP) Ho) as A3. rewrite A3.
  pose proof (proj2 (Z.eqb_neq o OD) Hd) as A5.
  destruct Hr as [-> | ->]; revert A3 A5; open_regions; intros A3 A5; 
  (destruct o as [|o|o]; [discriminate A3| |]); rewrite ?A5;
  try match goal with |- context [Tv2p_reg5 ?x ?y ?z] => destruct (Tv2p_reg5 x y z) as [q|]; [|discriminate] end;
  intros H; injection H as <-; reflexivity.
Qed.

(* wet steam: the quality found by the call determines the state *)
Lemma state_px fuel f a b x :
  In f [PH; PS; PV] ->
  call fuel f a b (from_pair (OX, 4%Z)) = Some x ->
  (a <? #0.000611212677444) || (#22.064 <? a) || (x <? #0.0) || (#1.0 <? x) = false ->
  forall o, ~ is_input f o -> o <> OX -> o <> OR ->
  call fuel f a b (from_pair (o, 4%Z)) = Some (px a x o).
Proof.
  intros Hf HX Hin o Hi Hx Hr. 
  assert (E : px a x o = px_reg4 a x o).
  { apply px_inside; try assumption. cbn in Hf; intros ->. apply Hi. left.
    repeat (destruct Hf as [<-|Hf]; [reflexivity|]). contradiction. }
  rewrite E. revert HX. rewrite !call_dispatch; unfold dispatch, is_input in *.
  rewrite (proj2 (Z.eqb_neq o (id1 f))) by tauto. rewrite (proj2 (Z.eqb_neq o (id2 f))) by tauto.
  rewrite (proj2 (Z.eqb_neq o OR)) by tauto. rewrite (proj2 (Z.eqb_neq o OX)) by tauto.
  pose proof (proj2 (Z.eqb_neq o OX) Hx) as A3.
  cbn in Hf. 
  repeat (destruct Hf as [<-|Hf]; [revert A3; open_regions; intros A3; rewrite A3; intros H; injection H as <-; reflexivity|]).
  contradiction.
Qed.

Lemma state_tx fuel f a b x :
  In f [TV; TH; TS] ->
  call fuel f a b (from_pair (OX, 4%Z)) = Some x ->
  (a + #273.15 <? #273.15) || (#647.096 <? a + #273.15) || (x <? #0.0) || (#1.0 <? x) = false ->
  forall o, ~ is_input f o -> o <> OX -> o <> OR ->
  call fuel f a b (from_pair (o, 4%Z)) = Some (tx a x o).
Proof.
  intros Hf HX Hin o Hi Hx Hr. 
  assert (E : tx a x o = Tx_reg4 (a + #273.15) x o).
  { apply tx_inside; try assumption. cbn in Hf; intros ->. apply Hi. left.
    repeat (destruct Hf as [<-|Hf]; [reflexivity|]). contradiction. }
  rewrite E. revert HX. rewrite !call_dispatch; unfold dispatch, is_input in *.
  rewrite (proj2 (Z.eqb_neq o (id1 f))) by tauto. rewrite (proj2 (Z.eqb_neq o (id2 f))) by tauto.
  rewrite (proj2 (Z.eqb_neq o OR)) by tauto. rewrite (proj2 (Z.eqb_neq o OX)) by tauto.
  pose proof (proj2 (Z.eqb_neq o OX) Hx) as A3.
  cbn in Hf. 
  repeat (destruct Hf as [<-|Hf]; [revert A3; open_regions; intros A3; rewrite A3; intros H; injection H as <-; reflexivity|]).
  contradiction.
Qed.

Lemma state_hs4 fuel a b p x :
  call fuel HS a b (from_pair (OP, 4%Z)) = Some p ->
  call fuel HS a b (from_pair (OX, 4%Z)) = Some x ->
  (p <? #0.000611212677444) || (#22.064 <? p) || (x <? #0.0) || (#1.0 <? x) = false ->
  forall o, ~ is_input HS o -> ~ In o [OP; OT; OX; OR] ->
  call fuel HS a b (from_pair (o, 4%Z)) = Some (px p x o).
Proof.
  intros HP HX Hin o Hi Ho. cbn [In] in Ho.
  assert (E : px p x o = px_reg4 p x o).
  { apply px_inside; try assumption; intros ->; tauto. }
  rewrite E. revert HP HX. rewrite !call_dispatch; unfold dispatch, is_input in *.
  rewrite (proj2 (Z.eqb_neq o (id1 HS))) by tauto. rewrite (proj2 (Z.eqb_neq o (id2 HS))) by tauto.
  rewrite (proj2 (Z.eqb_neq o OR)) by (intros ->; tauto). rewrite (proj2 (Z.eqb_neq o OX)) by (intros ->; tauto).
  assert (A3 : Z.eqb o OX = false) by (apply Z.eqb_neq; intros ->; tauto).
  assert (A4 : Z.eqb o OT = false) by (apply Z.eqb_neq; intros ->; tauto).
  assert (A5 : Z.eqb o OP = false) by (apply Z.eqb_neq; intros ->; tauto).
  revert A3 A4 A5; open_regions; intros A3 A4 A5; rewrite A3, A4.
  destruct o as [|o|o]; [discriminate A5| |];
  destruct (hs2T_reg4 fuel a b) as [T|]; try discriminate;
  intros H1 H2; injection H1 as <-; injection H2 as <-; reflexivity.
Qed.

(* region 3: temperature and volume *)
Lemma state_Tv_pt fuel a b v :
  call fuel PT a b (from_pair (OV, 3%Z)) = Some v ->
  forall o, ~ is_input PT o -> o <> OV ->
  call fuel PT a b (from_pair (o, 3%Z)) = call fuel TV b v (from_pair (o, 3%Z)).
Proof.
  intros HV o Hi Hv. revert HV. rewrite !call_dispatch; unfold dispatch, is_input in *. cbn [id1 id2] in *.
  rewrite (proj2 (Z.eqb_neq o OP)) by tauto. rewrite (proj2 (Z.eqb_neq o OT)) by tauto.
  pose proof (proj2 (Z.eqb_neq o OV) Hv) as A3. rewrite A3. revert A3.
  open_regions. intros A3. rewrite A3. intros H; injection H as <-. reflexivity.
Qed.

(* the remaining cases convert a temperature to Celsius and back *)
Context (celsius : forall T, (T - #273.15) + #273.15 = T).

Lemma state_pT fuel f a b r t :
  In (f, r) (list_prod [PH; PS; PV] [1; 2; 5]%Z) ->
  call fuel f a b (from_pair (OT, r)) = Some t ->
  forall o, ~ is_input f o -> o <> OT ->
  call fuel f a b (from_pair (o, r)) = call fuel PT a t (from_pair (o, r)).
Proof.
  intros Hf HP o Hi Ho. revert HP. rewrite !call_dispatch; unfold dispatch, is_input in *.
  assert (A1 : Z.eqb o (id1 f) = false) by (apply Z.eqb_neq; tauto).
  assert (A2 : Z.eqb o (id2 f) = false) by (apply Z.eqb_neq; tauto).
  assert (A3 : Z.eqb o OT = false) by (apply Z.eqb_neq; tauto).
  rewrite A1, A2. cbn in Hf.
  change (id1 PT) with OP; change (id2 PT) with OT; rewrite A3.
  assert (A4 : Z.eqb o OP = false).
  { repeat (destruct Hf as [E|Hf]; [injection E as <- <-; exact A1|]). contradiction. }
  rewrite A4. clear A1 A2 Hi Ho A4.
  repeat (destruct Hf as [E|Hf]; [injection E as <- <-; revert A3; 
    open_regions; intros A3; rewrite A3; intros H; injection H as <-; rewrite celsius; reflexivity|]).
  contradiction.
Qed.

Lemma state_hs fuel a b r p t :
  In r [1; 2; 5]%Z ->
  call fuel HS a b (from_pair (OP, r)) = Some p ->
  call fuel HS a b (from_pair (OT, r)) = Some t ->
  forall o, ~ is_input HS o -> o <> OP -> o <> OT ->
  call fuel HS a b (from_pair (o, r)) = call fuel PT p t (from_pair (o, r)).
Proof.
  intros Hf HP HT o Hi Ho Ht. revert HP HT. rewrite !call_dispatch; unfold dispatch, is_input in *.
  cbn [id1 id2] in *.
  rewrite (proj2 (Z.eqb_neq o OH)) by tauto. rewrite (proj2 (Z.eqb_neq o OS)) by tauto.
  pose proof (proj2 (Z.eqb_neq o OT) Ht) as A3. pose proof (proj2 (Z.eqb_neq o OP) Ho) as A4.
  rewrite A3, A4. cbn in Hf.
  repeat (destruct Hf as [<-|Hf]; [revert A3 A4; 
    open_regions; intros A3 A4; rewrite A3; 
    destruct o as [|o|o]; [discriminate A4| |];
    intros H1 H2; injection H1 as <-; injection H2 as <-; rewrite celsius; reflexivity|]).
  contradiction.
Qed.

Lemma state_Tv fuel f a b t v :
  In f [PH; PS; HS; PV] ->
  call fuel f a b (from_pair (OT, 3%Z)) = Some t ->
  call fuel f a b (from_pair (OV, 3%Z)) = Some v ->
  forall o, ~ is_input f o -> o <> OT -> o <> OV -> o <> OP ->
  call fuel f a b (from_pair (o, 3%Z)) = call fuel TV t v (from_pair (o, 3%Z)).
Proof.
  intros Hf HP HT o Hi Ho Ht Hp. revert HP HT. rewrite !call_dispatch; unfold dispatch, is_input in *.
  rewrite (proj2 (Z.eqb_neq o (id1 f))) by tauto. rewrite (proj2 (Z.eqb_neq o (id2 f))) by tauto.
  change (id1 TV) with OT; change (id2 TV) with OV.
  pose proof (proj2 (Z.eqb_neq o OT) Ho) as A3. pose proof (proj2 (Z.eqb_neq o OV) Ht) as A4.
  pose proof (proj2 (Z.eqb_neq o OP) Hp) as A5.
  rewrite A3, A4. cbn in Hf.
  repeat (destruct Hf as [<-|Hf]; [revert A3 A4 A5; 
    open_regions; intros A3 A4 A5; rewrite A3, ?A4;
    destruct o as [|o|o]; [discriminate A5| |];
    intros H1 H2; injection H1 as <-; injection H2 as <-; unfold K; rewrite celsius; reflexivity|]).
  contradiction.
Qed.

Context (reciprocal : forall d, d =? #0.0 = false -> #1.0 / (#1.0 / d) = d).

Lemma state_Td fuel f a b v d :
  In f [TH; TS] ->
  call fuel f a b (from_pair (OV, 3%Z)) = Some v ->
  call fuel f a b (from_pair (OD, 3%Z)) = Some d -> d =? #0.0 = false ->
  forall o, ~ is_input f o -> o <> OV ->
  call fuel f a b (from_pair (o, 3%Z)) = call fuel TV a v (from_pair (o, 3%Z)).
Proof.
  intros Hf HP HT Hd o Hi Ho. revert HP HT. rewrite !call_dispatch; unfold dispatch, is_input in *.
  assert (A1 : Z.eqb o (id1 f) = false) by (apply Z.eqb_neq; tauto).
  rewrite A1. rewrite (proj2 (Z.eqb_neq o (id2 f))) by tauto.
  change (id1 TV) with OT; change (id2 TV) with OV.
  pose proof (proj2 (Z.eqb_neq o OV) Ho) as A4. rewrite A4. cbn in Hf.
  repeat (destruct Hf as [<-|Hf]; [revert A1 A4; 
    open_regions; intros A1 A4; rewrite A1, ?A4;
    intros H1 H2; injection H1 as <-; injection H2 as <-; rewrite reciprocal by assumption;
    reflexivity|]).
  contradiction.
Qed.

End Any.
