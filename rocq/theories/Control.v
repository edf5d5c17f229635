(* Proofs about the dispatch layer, for every arithmetic. *)
From Coq Require Import ZArith List Bool Lia.
From Verif Require Import Num Constant Transport Reg1 Reg2 Reg3Td Reg5 Reg1Back Reg2Back Reg3 Reg4 Reg5Back Region Api Bindings
  RegionCodes Spec.
Import ListNotations.
Open Scope num_scope.

Ltac unids := cbv delta [OP OT OD OV OH OS OE OU OCP OCV OW OKS OF OG OZ OX OR OEC OKT ODVDT ODVDP
  ODPDT OIJTC OJTC ODV OKV OTC OTD OPR OST OSDC OPC OBETAP OFI OFU OALFAP REGION_NONE] in *.

(* replace every test [o =? k] that lia can decide *)
Ltac zdec :=
  repeat match goal with
  | |- context [Z.eqb ?a ?b] =>
      first [ rewrite (proj2 (Z.eqb_neq a b)) by lia | rewrite (proj2 (Z.eqb_eq a b)) by lia ]
  end; cbn [orb andb].

Section Any.
Context {N : Arith}.

Lemma echo1 fuel f a b r : call fuel f a b (from_pair (id1 f, r)) = Some a.
Proof. destruct f; reflexivity. Qed.
Lemma echo2 fuel f a b r : call fuel f a b (from_pair (id2 f, r)) = Some b.
Proof. destruct f; reflexivity. Qed.
Lemma from_i32_pair o : from_i32 o = from_pair (o, REGION_NONE).
Proof. reflexivity. Qed.

(* the region search of each function *)
Definition region_of (fuel : positive) (f : api2) (a b : num) : option Z :=
  match f with
  | PT => Some (pT_sub_region a (b + #273.15))
  | PH => Some (ph_sub_region a b)
  | PS => Some (ps_sub_region a b)
  | HS => Some (hs_sub_region a b)
  | PV => Some (pv_sub_region a b)
  | TV => Some (tv_sub_region a b)
  | TH => th_sub_region fuel a b
  | TS => Some (ts_sub_region a b)
  end.

(* the property function of each region *)
Definition prop_of (fuel : positive) (f : api2) (r : Z) (a b : num) (o : Z) : option num :=
  match f with
  | PT => let T := b + #273.15 in
     if Z.eqb r 1 then Some (pT_reg1 a T o) else if Z.eqb r 2 then Some (pT_reg2 a T o)
     else if Z.eqb r 3 then Some (pT_reg3 a T o) else if Z.eqb r 4 then Some (pT_reg4 a T o)
     else if Z.eqb r 5 then Some (pT_reg5 a T o) else Some (ofZ r)
  | PH =>
     if Z.eqb r 1 then Some (ph_reg1 a b o) else if Z.eqb r 2 then Some (ph_reg2 a b o)
     else if Z.eqb r 3 then Some (ph_reg3 a b o) else if Z.eqb r 4 then Some (ph_reg4 a b o)
     else if Z.eqb r 5 then Some (ph_reg5 a b o) else Some (ofZ r)
  | PS =>
     if Z.eqb r 1 then Some (ps_reg1 a b o) else if Z.eqb r 2 then Some (ps_reg2 a b o)
     else if Z.eqb r 3 then Some (ps_reg3 a b o) else if Z.eqb r 4 then Some (ps_reg4 a b o)
     else if Z.eqb r 5 then Some (ps_reg5 a b o) else Some (ofZ r)
  | HS =>
     if Z.eqb r 1 then Some (hs_reg1 a b o) else if Z.eqb r 2 then Some (hs_reg2 a b o)
     else if Z.eqb r 3 then Some (hs_reg3 a b o) else if Z.eqb r 4 then hs_reg4 fuel a b o
     else if Z.eqb r 5 then Some (hs_reg5 a b o) else Some (ofZ r)
  | PV =>
     if Z.eqb r 1 then Some (pv_reg1 a b o) else if Z.eqb r 2 then Some (pv_reg2 a b o)
     else if Z.eqb r 3 then Some (pv_reg3 a b o) else if Z.eqb r 4 then Some (pv_reg4 a b o)
     else if Z.eqb r 5 then Some (pv_reg5 a b o) else Some (ofZ r)
  | TV =>
     if Z.eqb r 1 then Some (tv_reg1 a b o) else if Z.eqb r 2 then tv_reg2 fuel a b o
     else if Z.eqb r 3 then Some (tv_reg3 a b o) else if Z.eqb r 4 then Some (tv_reg4 a b o)
     else if Z.eqb r 5 then tv_reg5 fuel a b o else Some (ofZ r)
  | TH =>
     if Z.eqb r 1 then Some (th_reg1 a b o) else if Z.eqb r 2 then th_reg2 fuel a b o
     else if Z.eqb r 3 then Some (th_reg3 a b o) else if Z.eqb r 4 then Some (th_reg4 a b o)
     else if Z.eqb r 5 then Some (th_reg5 a b o) else Some (ofZ r)
  | TS =>
     if Z.eqb r 1 then Some (ts_reg1 a b o) else if Z.eqb r 2 then Some (ts_reg2 a b o)
     else if Z.eqb r 3 then Some (ts_reg3 a b o) else if Z.eqb r 4 then Some (ts_reg4 a b o)
     else if Z.eqb r 5 then Some (ts_reg5 a b o) else Some (ofZ r)
  end.

(* one normal form for all eight functions *)
Definition dispatch (fuel : positive) (f : api2) (a b : num) (o r : Z) : option num :=
  if Z.eqb o (id1 f) then Some a
  else if Z.eqb o (id2 f) then Some b
  else
  match (if Z.eqb r REGION_NONE then region_of fuel f a b else Some r) with
  | None => None
  | Some s =>
      if Z.eqb o OR then Some (ofZ s)
      else if Z.eqb o OX then
        if Z.eqb s 1 then Some (#0.0)
        else if Z.eqb s 2 || Z.eqb s 3 || Z.eqb s 5 then Some (#1.0)
        else if Z.eqb s 4 then prop_of fuel f 4 a b OX
        else Some (ofZ INVALID_VALUE)
      else prop_of fuel f s a b o
  end.

Lemma pair_properties_some v1 v2 o fr f1 f2 f3 f4 f5 r :
  Some (pair_properties v1 v2 o fr f1 f2 f3 f4 f5 r) =
  pair_properties_o v1 v2 o (fun a b => Some (fr a b)) (tot2 f1) (tot2 f2) (tot2 f3) (tot2 f4) (tot2 f5) r.
Proof.
  unfold pair_properties, pair_properties_o, tot2.
  destruct (Z.eqb r REGION_NONE); cbv zeta;
  repeat match goal with |- Some (if ?c then _ else _) = _ => destruct c; [try reflexivity|] end; reflexivity.
Qed.

Lemma call_dispatch fuel f a b o r : call fuel f a b (from_pair (o, r)) = dispatch fuel f a b o r.
Proof.
  destruct f; cbn [call]; unfold pt, ph, ps, hs, pv, tv, th, ts, from_pair, o_id_reg_info;
  cbn [args_o_id args_region fst snd]; unfold dispatch, id1, id2; cbv zeta;
  (destruct (Z.eqb o _); [reflexivity|]);
  (destruct (Z.eqb o _); [reflexivity|]);
  rewrite ?pair_properties_some; unfold pair_properties_o, tot2, region_of;
  match goal with |- match ?m with _ => _ end = _ => destruct m as [s|]; [|reflexivity] end;
  (destruct (Z.eqb o OR); [reflexivity|]); (destruct (Z.eqb o OX); reflexivity).
Qed.

Lemma call_dispatch_auto fuel f a b o : call fuel f a b (from_i32 o) = dispatch fuel f a b o REGION_NONE.
Proof. rewrite from_i32_pair; apply call_dispatch. Qed.

Lemma region_of_codes fuel f a b r : region_of fuel f a b = Some r ->
  In r (region_numbers ++ error_codes f).
Proof.
  intros H.
  destruct f; cbn [region_of] in H; try (injection H as <-);
  unfold region_numbers, error_codes; cbn [app].
  - apply pT_sub_region_codes; cbv; tauto.
  - apply ph_sub_region_codes; cbv; tauto.
  - apply ps_sub_region_codes; cbv; tauto.
  - apply hs_sub_region_codes; cbv; tauto.
  - apply pv_sub_region_codes; cbv; tauto.
  - apply tv_sub_region_codes; cbv; tauto.
  - refine (th_sub_region_codes (fun z => In z [1; 2; 3; 4; 5; -9999]%Z) _ _ _ _ _ _ _ _ _ _ H); cbv; tauto.
  - apply ts_sub_region_codes; cbv; tauto.
Qed.

Lemma OR_not_input f : id1 f <> OR /\ id2 f <> OR.
Proof. destruct f; split; discriminate. Qed.
Lemma OX_not_input f : id1 f <> OX /\ id2 f <> OX.
Proof. destruct f; split; discriminate. Qed.

Lemma region_query fuel f a b :
  call fuel f a b (from_i32 OR) = option_map ofZ (region_of fuel f a b).
Proof.
  rewrite call_dispatch_auto; unfold dispatch.
  destruct (OR_not_input f) as [A B].
  rewrite (proj2 (Z.eqb_neq _ _) (not_eq_sym A)), (proj2 (Z.eqb_neq _ _) (not_eq_sym B)).
  rewrite !Z.eqb_refl. destruct (region_of fuel f a b); reflexivity.
Qed.

Lemma codes_not_none f r : In r (region_numbers ++ error_codes f) -> r <> REGION_NONE.
Proof. destruct f; cbn; unfold REGION_NONE; intros H; lia. Qed.

Lemma region_query_closed fuel f a b v :
  call fuel f a b (from_i32 OR) = Some v ->
  exists r, In r (region_numbers ++ error_codes f) /\ v = ofZ r.
Proof.
  rewrite region_query. destruct (region_of fuel f a b) as [r|] eqn:E; [|discriminate].
  intros H; injection H as <-. exists r; split; [eapply region_of_codes; eassumption|reflexivity].
Qed.

Lemma auto_is_explicit fuel f a b v :
  call fuel f a b (from_i32 OR) = Some v ->
  exists r, In r (region_numbers ++ error_codes f) /\ v = ofZ r /\
    forall o, call fuel f a b (from_i32 o) = call fuel f a b (from_pair (o, r)).
Proof.
  rewrite region_query. destruct (region_of fuel f a b) as [r|] eqn:E; [|discriminate].
  intros H; injection H as <-. pose proof (region_of_codes _ _ _ _ _ E) as Hc.
  exists r; split; [exact Hc|split; [reflexivity|]]. intros o.
  rewrite call_dispatch_auto, call_dispatch; unfold dispatch.
  rewrite Z.eqb_refl, (proj2 (Z.eqb_neq _ _) (codes_not_none _ _ Hc)), E. reflexivity.
Qed.

(* an unfinished region search makes every non-echo call unfinished *)
Lemma auto_unfinished fuel f a b :
  call fuel f a b (from_i32 OR) = None ->
  forall o, ~ is_input f o -> call fuel f a b (from_i32 o) = None.
Proof.
  rewrite region_query. destruct (region_of fuel f a b) as [r|] eqn:E; [discriminate|].
  intros _ o Ho. rewrite call_dispatch_auto; unfold dispatch, is_input in *.
  rewrite (proj2 (Z.eqb_neq o (id1 f))) by tauto. rewrite (proj2 (Z.eqb_neq o (id2 f))) by tauto.
  rewrite Z.eqb_refl, E. reflexivity.
Qed.

Lemma prop_of_other fuel f r a b o : ~ (1 <= r <= 5)%Z -> prop_of fuel f r a b o = Some (ofZ r).
Proof. intros H; destruct f; cbn [prop_of]; zdec; reflexivity. Qed.

(* a region outside 1..5 is returned as the value *)
Lemma explicit_outside fuel f a b o r :
  ~ (1 <= r <= 5)%Z -> r <> REGION_NONE -> ~ is_input f o ->
  call fuel f a b (from_pair (o, r)) = Some (ofZ (if Z.eqb o OX then INVALID_VALUE else r)).
Proof.
  intros Hr Hn Ho; rewrite call_dispatch; unfold dispatch, is_input in *.
  rewrite (proj2 (Z.eqb_neq o (id1 f))) by tauto. rewrite (proj2 (Z.eqb_neq o (id2 f))) by tauto.
  rewrite (proj2 (Z.eqb_neq r REGION_NONE)) by assumption.
  destruct (Z.eqb_spec o OR) as [->|HO].
  - reflexivity.
  - destruct (Z.eqb_spec o OX) as [->|HX]; [zdec; reflexivity|apply prop_of_other; assumption].
Qed.

Lemma errors_propagate fuel f a b c o :
  call fuel f a b (from_i32 OR) = Some (ofZ c) ->
  (forall r, ofZ c = ofZ r -> In r (region_numbers ++ error_codes f) -> r = c) ->
  (c < 0)%Z -> ~ is_input f o ->
  call fuel f a b (from_i32 o) = Some (ofZ (if Z.eqb o OX then INVALID_VALUE else c)).
Proof.
  intros HR Hinj Hc Ho.
  destruct (auto_is_explicit _ _ _ _ _ HR) as (r & Hin & Hv & Hall).
  assert (r = c) by (apply Hinj; assumption). subst r.
  rewrite Hall. apply explicit_outside; [lia| |assumption]. unfold REGION_NONE; lia.
Qed.

(* quality *)
Lemma quality_explicit fuel f a b r :
  (r = 1 -> call fuel f a b (from_pair (OX, r)) = Some (#0.0))%Z /\
  (r = 2 \/ r = 3 \/ r = 5 -> call fuel f a b (from_pair (OX, r)) = Some (#1.0))%Z /\
  (~ (1 <= r <= 5) -> r <> REGION_NONE -> call fuel f a b (from_pair (OX, r)) = Some (ofZ INVALID_VALUE))%Z.
Proof.
  destruct (OX_not_input f) as [A B].
  rewrite call_dispatch; unfold dispatch.
  rewrite (proj2 (Z.eqb_neq _ _) (not_eq_sym A)), (proj2 (Z.eqb_neq _ _) (not_eq_sym B)).
  replace (OX =? OR)%Z with false by reflexivity. rewrite Z.eqb_refl.
  unfold REGION_NONE.
  split; [|split].
  - intros ->. reflexivity.
  - intros [ -> | [ -> | -> ]]; reflexivity.
  - intros H Hn. zdec. reflexivity.
Qed.

(* ---- unknown ids ---- *)
Lemma transport_unknown v1 v2 o pr f : unknown_id o -> pair_transport_reg v1 v2 o pr f = ofZ INVALID_OUTID.
Proof. intros H; unfold unknown_id in H; unfold pair_transport_reg; unids; zdec; reflexivity. Qed.

Lemma pT_reg1_unknown p T o : unknown_id o -> pT_reg1 p T o = ofZ INVALID_OUTID.
Proof. intros H; unfold unknown_id in H; cbv beta delta [pT_reg1 pT_thermal_reg1 pT_ext_reg1]; unids; zdec; reflexivity. Qed.
Lemma pT_reg2_unknown p T o : unknown_id o -> pT_reg2 p T o = ofZ INVALID_OUTID.
Proof. intros H; unfold unknown_id in H; cbv beta delta [pT_reg2 pT_thermal_reg2 pT_ext_reg2]; unids; zdec; reflexivity. Qed.
Lemma pT_reg5_unknown p T o : unknown_id o -> pT_reg5 p T o = ofZ INVALID_OUTID.
Proof. intros H; unfold unknown_id in H; cbv beta delta [pT_reg5 pT_thermal_reg5 pT_ext_reg5]; unids; zdec; reflexivity. Qed.
Lemma Td_reg3_unknown T d o : unknown_id o -> Td_reg3 T d o = ofZ INVALID_OUTID.
Proof. intros H; unfold unknown_id in H; cbv beta delta [Td_reg3 Td_thermal_reg3 Td_ext_reg3]; unids; zdec; reflexivity. Qed.

Lemma p2sat_water_unknown p o : unknown_id o -> p2sat_water p o = ofZ INVALID_OUTID.
Proof.
  intros H; pose proof H as H'; unfold unknown_id in H; cbv beta delta [p2sat_water]; unids; zdec.
  cbv zeta.
  repeat match goal with
  | |- ofZ _ = _ => reflexivity
  | |- Td_reg3 _ _ _ = _ => apply Td_reg3_unknown; assumption
  | |- pT_reg1 _ _ _ = _ => apply pT_reg1_unknown; assumption
  | |- (if ?c then _ else _) = _ => destruct c
  end.
Qed.
Lemma p2sat_steam_unknown p o : unknown_id o -> p2sat_steam p o = ofZ INVALID_OUTID.
Proof.
  intros H; pose proof H as H'; unfold unknown_id in H; cbv beta delta [p2sat_steam]; unids; zdec.
  cbv zeta.
  repeat match goal with
  | |- ofZ _ = _ => reflexivity
  | |- Td_reg3 _ _ _ = _ => apply Td_reg3_unknown; assumption
  | |- pT_reg2 _ _ _ = _ => apply pT_reg2_unknown; assumption
  | |- (if ?c then _ else _) = _ => destruct c
  end.
Qed.
Lemma T2sat_water_unknown T o : unknown_id o -> T2sat_water T o = ofZ INVALID_OUTID.
Proof.
  intros H; pose proof H as H'; unfold unknown_id in H; cbv beta delta [T2sat_water]; unids; zdec.
  cbv zeta.
  repeat match goal with
  | |- ofZ _ = _ => reflexivity
  | |- Td_reg3 _ _ _ = _ => apply Td_reg3_unknown; assumption
  | |- pT_reg1 _ _ _ = _ => apply pT_reg1_unknown; assumption
  | |- (if ?c then _ else _) = _ => destruct c
  end.
Qed.
Lemma T2sat_steam_unknown T o : unknown_id o -> T2sat_steam T o = ofZ INVALID_OUTID.
Proof.
  intros H; pose proof H as H'; unfold unknown_id in H; cbv beta delta [T2sat_steam]; unids; zdec.
  cbv zeta.
  repeat match goal with
  | |- ofZ _ = _ => reflexivity
  | |- Td_reg3 _ _ _ = _ => apply Td_reg3_unknown; assumption
  | |- pT_reg2 _ _ _ = _ => apply pT_reg2_unknown; assumption
  | |- (if ?c then _ else _) = _ => destruct c
  end.
Qed.
Lemma px_reg4_unknown p x o : unknown_id o -> px_reg4 p x o = ofZ INVALID_OUTID.
Proof.
  intros H; pose proof H as H'; unfold unknown_id in H; cbv beta delta [px_reg4]; unids; zdec.
  repeat match goal with
  | |- ofZ _ = _ => reflexivity
  | |- p2sat_water _ _ = _ => apply p2sat_water_unknown; assumption
  | |- p2sat_steam _ _ = _ => apply p2sat_steam_unknown; assumption
  | |- (if ?c then _ else _) = _ => destruct c
  end.
  all: reflexivity.
Qed.
Lemma Tx_reg4_unknown T x o : unknown_id o -> Tx_reg4 T x o = ofZ INVALID_OUTID.
Proof.
  intros H; pose proof H as H'; unfold unknown_id in H; cbv beta delta [Tx_reg4]; unids; zdec.
  repeat match goal with
  | |- ofZ _ = _ => reflexivity
  | |- T2sat_water _ _ = _ => apply T2sat_water_unknown; assumption
  | |- T2sat_steam _ _ = _ => apply T2sat_steam_unknown; assumption
  | |- (if ?c then _ else _) = _ => destruct c
  end.
  all: reflexivity.
Qed.

Lemma unknown_rejected fuel f a b o r v :
  unknown_id o -> (1 <= r <= 5)%Z -> ~ (f = PT /\ r = 4%Z) ->
  call fuel f a b (from_pair (o, r)) = Some v -> v = ofZ INVALID_OUTID.
Proof.
  intros Hu Hr Hex. rewrite call_dispatch; unfold dispatch.
  pose proof Hu as Hu'. unfold unknown_id in Hu'.
  assert (E1 : Z.eqb o (id1 f) = false) by (apply Z.eqb_neq; destruct f; cbn; unids; lia).
  assert (E2 : Z.eqb o (id2 f) = false) by (apply Z.eqb_neq; destruct f; cbn; unids; lia).
  assert (E3 : Z.eqb o OR = false) by (apply Z.eqb_neq; unids; lia).
  assert (E4 : Z.eqb o OX = false) by (apply Z.eqb_neq; unids; lia).
  assert (E5 : Z.eqb r REGION_NONE = false) by (apply Z.eqb_neq; unids; lia).
  rewrite E1, E2, E3, E4, E5.
  assert (Hr' : r = 1%Z \/ r = 2%Z \/ r = 3%Z \/ r = 4%Z \/ r = 5%Z) by lia.
  assert (EV : Z.eqb o OV = false) by (apply Z.eqb_neq; unids; lia).
  assert (ED : Z.eqb o OD = false) by (apply Z.eqb_neq; unids; lia).
  assert (EP : Z.eqb o OP = false) by (apply Z.eqb_neq; unids; lia).
  assert (ET : Z.eqb o OT = false) by (apply Z.eqb_neq; unids; lia).
  destruct f; cbn [prop_of];
  destruct Hr' as [ -> | [ -> | [ -> | [ -> | -> ]]]]; cbn [Z.eqb Pos.eqb];
  intros H;
  try (exfalso; apply Hex; split; reflexivity);
  repeat match type of H with
  | context [hs_reg4 ?a ?b ?c ?d] => unfold hs_reg4 in H; destruct (hs2T_reg4 a b c); [|discriminate H]
  | context [tv_reg2 ?a ?b ?c ?d] => unfold tv_reg2 in H; destruct (Tv2p_reg2 a (b + K) c); [|discriminate H]
  | context [th_reg2 ?a ?b ?c ?d] => unfold th_reg2 in H; destruct (Th2p_reg2 a (b + #273.15) c); [|discriminate H]
  | context [tv_reg5 ?a ?b ?c ?d] => unfold tv_reg5 in H; rewrite ?ED in H; destruct (Tv2p_reg5 a (b + #273.15) c); [|discriminate H]
  end;
  injection H as <-;
  cbv beta delta [pT_reg3 ph_reg1 ph_reg2 ph_reg3 ph_reg4 ph_reg5 ps_reg1 ps_reg2 ps_reg3 ps_reg4 ps_reg5
    hs_reg1 hs_reg2 hs_reg3 hs_reg5 pv_reg1 pv_reg2 pv_reg3 pv_reg4 pv_reg5
    tv_reg1 tv_reg3 tv_reg4 th_reg1 th_reg3 th_reg4 th_reg5 ts_reg1 ts_reg2 ts_reg3 ts_reg4 ts_reg5];
  rewrite ?EV, ?ED, ?EP, ?ET, ?E4; cbv zeta;
  match goal with
  | |- pT_reg1 _ _ _ = _ => apply pT_reg1_unknown
  | |- pT_reg2 _ _ _ = _ => apply pT_reg2_unknown
  | |- pT_reg5 _ _ _ = _ => apply pT_reg5_unknown
  | |- Td_reg3 _ _ _ = _ => apply Td_reg3_unknown
  | |- px_reg4 _ _ _ = _ => apply px_reg4_unknown
  | |- Tx_reg4 _ _ _ = _ => apply Tx_reg4_unknown
  end; assumption.
Qed.

(* ---- quality-pair functions ---- *)
Lemma px_outside p x o :
  (p <? #0.000611212677444) || (#22.064 <? p) || (x <? #0.0) || (#1.0 <? x) = true ->
  px p x o = ofZ INVALID_VALUE.
Proof.
  unfold px, P_MAX4, P_MIN4.
  destruct (p <? _), (_ <? p), (x <? _), (_ <? x); cbn; intros H; try discriminate H; reflexivity.
Qed.
Lemma px_inside p x :
  (p <? #0.000611212677444) || (#22.064 <? p) || (x <? #0.0) || (#1.0 <? x) = false ->
  px p x OP = p /\ px p x OX = x /\ (forall o, o <> OP -> o <> OX -> px p x o = px_reg4 p x o).
Proof.
  unfold px, P_MAX4, P_MIN4.
  destruct (p <? _), (_ <? p), (x <? _), (_ <? x); cbn; intros H; try discriminate H.
  split; [reflexivity|split; [reflexivity|]]. intros o A B.
  rewrite (proj2 (Z.eqb_neq o OP) A), (proj2 (Z.eqb_neq o OX) B). reflexivity.
Qed.
Lemma hx_outside h x o :
  (h <? #0.38039218566765925) || (#2803.2738880203456 <? h) || (x <? #0.0) || (#1.0 <? x) = true ->
  hx h x o = ofZ INVALID_VALUE.
Proof.
  unfold hx, H_MAX4, H_MIN4.
  destruct (h <? _), (_ <? h), (x <? _), (_ <? x); cbn; intros H; try discriminate H; reflexivity.
Qed.
Lemma hx_inside h x :
  (h <? #0.38039218566765925) || (#2803.2738880203456 <? h) || (x <? #0.0) || (#1.0 <? x) = false ->
  hx h x OH = h /\ hx h x OX = x /\ (forall o, o <> OH -> o <> OX -> hx h x o = hx_reg4 h x o).
Proof.
  unfold hx, H_MAX4, H_MIN4.
  destruct (h <? _), (_ <? h), (x <? _), (_ <? x); cbn; intros H; try discriminate H.
  split; [reflexivity|split; [reflexivity|]]. intros o A B.
  rewrite (proj2 (Z.eqb_neq o OH) A), (proj2 (Z.eqb_neq o OX) B). reflexivity.
Qed.
Lemma sx_outside s x o :
  (s <? #0.33567511183921145) || (#9.153081306725117 <? s) || (x <? #0.0) || (#1.0 <? x) = true ->
  sx s x o = ofZ INVALID_VALUE.
Proof.
  unfold sx, S_MAX4, S_MIN4.
  destruct (s <? _), (_ <? s), (x <? _), (_ <? x); cbn; intros H; try discriminate H; reflexivity.
Qed.
Lemma sx_inside s x :
  (s <? #0.33567511183921145) || (#9.153081306725117 <? s) || (x <? #0.0) || (#1.0 <? x) = false ->
  sx s x OS = s /\ sx s x OX = x /\ (forall o, o <> OS -> o <> OX -> sx s x o = sx_reg4 s x o).
Proof.
  unfold sx, S_MAX4, S_MIN4.
  destruct (s <? _), (_ <? s), (x <? _), (_ <? x); cbn; intros H; try discriminate H.
  split; [reflexivity|split; [reflexivity|]]. intros o A B.
  rewrite (proj2 (Z.eqb_neq o OS) A), (proj2 (Z.eqb_neq o OX) B). reflexivity.
Qed.
Lemma tx_echo t x : tx t x OT = t /\ tx t x OX = x.
Proof. split; reflexivity. Qed.
Lemma tx_outside t x o : o <> OT -> o <> OX ->
  (t + #273.15 <? #273.15) || (#647.096 <? t + #273.15) || (x <? #0.0) || (#1.0 <? x) = true ->
  tx t x o = ofZ INVALID_VALUE.
Proof.
  intros A B. unfold tx, T_MAX4, T_MIN4.
  rewrite (proj2 (Z.eqb_neq o OT) A), (proj2 (Z.eqb_neq o OX) B). cbv zeta.
  destruct (_ + _ <? _), (_ <? _ + _), (x <? _), (_ <? x); cbn; intros H; try discriminate H; reflexivity.
Qed.
Lemma tx_inside t x o : o <> OT -> o <> OX ->
  (t + #273.15 <? #273.15) || (#647.096 <? t + #273.15) || (x <? #0.0) || (#1.0 <? x) = false ->
  tx t x o = Tx_reg4 (t + #273.15) x o.
Proof.
  intros A B. unfold tx, T_MAX4, T_MIN4.
  rewrite (proj2 (Z.eqb_neq o OT) A), (proj2 (Z.eqb_neq o OX) B). cbv zeta.
  destruct (_ + _ <? _), (_ <? _ + _), (x <? _), (_ <? x); cbn; intros H; try discriminate H; reflexivity.
Qed.
Lemma px_unknown p x o : unknown_id o ->
  (p <? #0.000611212677444) || (#22.064 <? p) || (x <? #0.0) || (#1.0 <? x) = false ->
  px p x o = ofZ INVALID_OUTID.
Proof.
  intros U H. destruct (px_inside p x H) as (_ & _ & E).
  rewrite E by (unfold unknown_id in U; unids; lia). apply px_reg4_unknown; assumption.
Qed.
Lemma tx_unknown t x o : unknown_id o ->
  (t + #273.15 <? #273.15) || (#647.096 <? t + #273.15) || (x <? #0.0) || (#1.0 <? x) = false ->
  tx t x o = ofZ INVALID_OUTID.
Proof.
  intros U H. rewrite tx_inside by (try assumption; unfold unknown_id in U; unids; lia).
  apply Tx_reg4_unknown; assumption.
Qed.
Lemma hx_unknown h x o : unknown_id o ->
  (h <? #0.38039218566765925) || (#2803.2738880203456 <? h) || (x <? #0.0) || (#1.0 <? x) = false ->
  hx h x o = ofZ INVALID_OUTID.
Proof.
  intros U H. destruct (hx_inside h x H) as (_ & _ & E).
  rewrite E by (unfold unknown_id in U; unids; lia).
  cbv beta delta [hx_reg4]. unfold unknown_id in U. unids. zdec. cbv zeta. apply Tx_reg4_unknown; exact U.
Qed.
Lemma sx_unknown s x o : unknown_id o ->
  (s <? #0.33567511183921145) || (#9.153081306725117 <? s) || (x <? #0.0) || (#1.0 <? x) = false ->
  sx s x o = ofZ INVALID_OUTID.
Proof.
  intros U H. destruct (sx_inside s x H) as (_ & _ & E).
  rewrite E by (unfold unknown_id in U; unids; lia).
  cbv beta delta [sx_reg4]. unfold unknown_id in U. unids. zdec. cbv zeta. apply Tx_reg4_unknown; exact U.
Qed.

(* ---- when the codes are told apart by their values ---- *)
Definition codes_distinct : Prop :=
  forall r c, In r [1; 2; 3; 4; 5; -9999; -2100; -2101; -2102]%Z ->
    In c [1; 2; 3; 4; 5; -9999; -2100; -2101; -2102]%Z -> ofZ r = ofZ c -> r = c.

Lemma codes_in f r : In r (region_numbers ++ error_codes f) ->
  In r [1; 2; 3; 4; 5; -9999; -2100; -2101; -2102]%Z.
Proof. destruct f; cbn; tauto. Qed.

Lemma region_known (D : codes_distinct) fuel f a b c :
  In c (region_numbers ++ error_codes f) ->
  call fuel f a b (from_i32 OR) = Some (ofZ c) ->
  forall o, call fuel f a b (from_i32 o) = call fuel f a b (from_pair (o, c)).
Proof.
  intros Hc HR. destruct (auto_is_explicit _ _ _ _ _ HR) as (r & Hin & Hv & Hall).
  assert (c = r) as -> by (apply D; eauto using codes_in). assumption.
Qed.

Lemma errors_everywhere (D : codes_distinct) fuel f a b c o :
  In c (error_codes f) -> call fuel f a b (from_i32 OR) = Some (ofZ c) -> ~ is_input f o ->
  call fuel f a b (from_i32 o) = Some (ofZ (if Z.eqb o OX then INVALID_VALUE else c)).
Proof.
  intros Hc HR Ho. rewrite (region_known D fuel f a b c) by (try assumption; apply in_or_app; right; assumption).
  apply explicit_outside; [| |assumption]; destruct f; cbn in Hc; unfold REGION_NONE; lia.
Qed.

Lemma unknown_auto (D : codes_distinct) fuel f a b o r v :
  unknown_id o -> (1 <= r <= 5)%Z -> ~ (f = PT /\ r = 4%Z) ->
  call fuel f a b (from_i32 OR) = Some (ofZ r) ->
  call fuel f a b (from_i32 o) = Some v -> v = ofZ INVALID_OUTID.
Proof.
  intros U Hr Hx HR.
  rewrite (region_known D fuel f a b r) by (try assumption; apply in_or_app; left; cbn; lia).
  apply unknown_rejected; assumption.
Qed.

Lemma quality_auto (D : codes_distinct) fuel f a b r :
  In r (region_numbers ++ error_codes f) ->
  call fuel f a b (from_i32 OR) = Some (ofZ r) ->
  (r = 1 -> call fuel f a b (from_i32 OX) = Some (#0.0))%Z /\
  (r = 2 \/ r = 3 \/ r = 5 -> call fuel f a b (from_i32 OX) = Some (#1.0))%Z /\
  (r < 0 -> call fuel f a b (from_i32 OX) = Some (ofZ INVALID_VALUE))%Z.
Proof.
  intros Hr HR. rewrite (region_known D fuel f a b r) by assumption.
  destruct (quality_explicit fuel f a b r) as (A & B & C).
  split; [exact A|split; [exact B|]]. intros H. apply C; unfold REGION_NONE; lia.
Qed.

End Any.
