(* Transport properties derived from viscosity, conductivity, density and heat capacity,
   for any arithmetic; surface tension over the reals. *)
From Coq Require Import ZArith List Bool Lia.
From Verif Require Import Num Constant Transport Reg1 Reg2 Reg3Td Reg5 Reg1Back Reg2Back Reg3V Reg3 Reg4 Reg5Back Region Api
  Spec Control Consist.
Import ListNotations.
Open Scope num_scope.

Section Any.
Context {N : Arith}.
Definition fr125 : list (api2 * Z) := list_prod [PT; PH; PS; HS; PV; TH; TS] [1; 2; 5]%Z ++ [(TV, 2%Z)].
Definition fr3 : list api2 := [PT; PH; PS; HS; PV; TV; TH; TS].

Ltac open_regions ::= cbv beta iota zeta delta [id1 id2 prop_of OP OT OD OV OH OS OX OR OKV ODV OTC OTD OPR OCP OST REGION_NONE Z.eqb Pos.eqb orb
    pT_reg3 ph_reg1 ph_reg2 ph_reg3 ph_reg4 ph_reg5 ps_reg1 ps_reg2 ps_reg3 ps_reg4 ps_reg5
    hs_reg1 hs_reg2 hs_reg3 hs_reg4 hs_reg5 pv_reg1 pv_reg2 pv_reg3 pv_reg4 pv_reg5
    tv_reg1 tv_reg2 tv_reg3 tv_reg4 tv_reg5 th_reg1 th_reg2 th_reg3 th_reg4 th_reg5
    ts_reg1 ts_reg2 ts_reg3 ts_reg4 ts_reg5].
Ltac opened Hf := cbn in Hf; repeat (destruct Hf as [E|Hf]; [injection E as <- <-|]); try contradiction.
Ltac unopt := repeat match goal with
  | H : match ?t with Some _ => _ | None => _ end = Some _ |- _ => destruct t; [|discriminate H]
  | H : Some _ = Some _ |- _ => injection H as <- end.
Lemma okv_125 fuel f a b r dv d : In (f, r) fr125 ->
  call fuel f a b (from_pair (ODV, r)) = Some dv -> call fuel f a b (from_pair (OD, r)) = Some d ->
  call fuel f a b (from_pair (OKV, r)) = Some (dv / d).
Proof.
  intros Hf. rewrite !call_dispatch; unfold dispatch. unfold fr125 in Hf.
  opened Hf; open_regions; intros H1 H2; unopt; reflexivity.
Qed.
Lemma otd_125 fuel f a b r tc cp d : In (f, r) fr125 ->
  call fuel f a b (from_pair (OTC, r)) = Some tc -> call fuel f a b (from_pair (OCP, r)) = Some cp -> call fuel f a b (from_pair (OD, r)) = Some d ->
  call fuel f a b (from_pair (OTD, r)) = Some (#1.0e-3 * tc / (cp * d)).
Proof.
  intros Hf. rewrite !call_dispatch; unfold dispatch. unfold fr125 in Hf.
  opened Hf; open_regions; intros H1 H2 H3; unopt; reflexivity.
Qed.
(* the Prandtl number is computed at density 1/T *)
Lemma opr_125 fuel f a b r t cp : In (f, r) (list_prod [TH; TS] [1; 2; 5]%Z ++ [(PT, 1); (PT, 2); (PT, 5)]%Z) ->
  t = (match f with PT => b | _ => a end) ->
  call fuel f a b (from_pair (OCP, r)) = Some cp ->
  let T := t + #273.15 in
  call fuel f a b (from_pair (OPR, r)) = Some (#1.0E+3 * viscosity (#1.0 / T) T * cp / thcond (#1.0 / T) T).
Proof.
  intros Hf Ht. rewrite !call_dispatch; unfold dispatch.
  opened Hf; open_regions; intros H1; subst t; unopt; reflexivity.
Qed.
Lemma okv_3 fuel f a b dv d : In f fr3 ->
  call fuel f a b (from_pair (ODV, 3%Z)) = Some dv -> call fuel f a b (from_pair (OD, 3%Z)) = Some d ->
  call fuel f a b (from_pair (OKV, 3%Z)) = Some (d * dv).
Proof.
  intros Hf. rewrite !call_dispatch; unfold dispatch. unfold fr3 in Hf.
  cbn in Hf; repeat (destruct Hf as [<-|Hf]; [open_regions; intros H1 H2; unopt; reflexivity|]); contradiction.
Qed.
Lemma otd_3 fuel f a b tc cp d : In f fr3 ->
  call fuel f a b (from_pair (OTC, 3%Z)) = Some tc -> call fuel f a b (from_pair (OCP, 3%Z)) = Some cp -> call fuel f a b (from_pair (OD, 3%Z)) = Some d ->
  call fuel f a b (from_pair (OTD, 3%Z)) = Some (#1.0e-3 * tc / (cp * d)).
Proof.
  intros Hf. rewrite !call_dispatch; unfold dispatch. unfold fr3 in Hf.
  cbn in Hf; repeat (destruct Hf as [<-|Hf]; [open_regions; intros H1 H2 H3; unopt; reflexivity|]); contradiction.
Qed.
Lemma opr_3 fuel f a b dv tc cp : In f fr3 ->
  call fuel f a b (from_pair (ODV, 3%Z)) = Some dv -> call fuel f a b (from_pair (OTC, 3%Z)) = Some tc -> call fuel f a b (from_pair (OCP, 3%Z)) = Some cp ->
  call fuel f a b (from_pair (OPR, 3%Z)) = Some (#1.0E+3 * dv * cp / tc).
Proof.
  intros Hf. rewrite !call_dispatch; unfold dispatch. unfold fr3 in Hf.
  cbn in Hf; repeat (destruct Hf as [<-|Hf]; [open_regions; intros H1 H2 H3; unopt; reflexivity|]); contradiction.
Qed.
(* surface tension depends on the temperature only *)
Definition frT : list (api2 * Z) := list_prod [PT; TH; TS; TV] [1; 2; 3; 5]%Z.
Lemma ost_T fuel f a b r x : In (f, r) frT -> call fuel f a b (from_pair (OST, r)) = Some x ->
  x = surface_tension ((match f with PT => b | _ => a end) + #273.15).
Proof.
  intros Hf. rewrite !call_dispatch; unfold dispatch. unfold frT in Hf.
  opened Hf; open_regions; intros H1; unopt; reflexivity.
Qed.
Lemma ost_range T : (#248.15 <=? T) = false \/ (T <=? TC_WATER) = false -> surface_tension T = ofZ INVALID_VALUE.
Proof. intros [H|H]; unfold surface_tension; rewrite H; [reflexivity|]. now rewrite andb_false_r. Qed.
End Any.
