(* The mixture rule of px and tx, for any arithmetic. *)
From Coq Require Import ZArith List Bool Reals Lra Lia.
From Verif Require Import Num Constant R4Sat Reg1Back Reg2Back Reg3V Reg3 Reg4 Api SpecWet.
Import ListNotations.
Open Scope num_scope.

Notation lin_ids := energy_ids.
Section Any.
Context {N : Arith}.
Hypothesis L01 : lits01.

Ltac lits := destruct L01 as (?L1 & ?L2 & ?L3 & ?L4 & ?L5 & ?L6).
Lemma px_mid p x o : in_px p x -> inner x -> Z.eqb o OP = false -> Z.eqb o OX = false ->
  px p x o = px_reg4 p x o /\ px p (#0.0) o = p2sat_water p o /\ px p (#1.0) o = p2sat_steam p o.
Proof.
  intros (G1 & G2 & G3 & G4) [I1 I2] O1 O2. lits. unfold px. rewrite G1, G2, G3, G4, O1, O2, L4, L5, L6. cbn [orb].
  unfold px_reg4. rewrite L1, L2, L3. auto.
Qed.
Lemma tx_mid t x o : let T := t + #273.15 in in_tx T x -> inner x -> Z.eqb o OP = false -> Z.eqb o OT = false -> Z.eqb o OX = false ->
  tx t x o = Tx_reg4 T x o /\ tx t (#0.0) o = T2sat_water T o /\ tx t (#1.0) o = T2sat_steam T o.
Proof.
  intros T (G1 & G2 & G3 & G4) [I1 I2] O1 O2 O3. lits. unfold tx. fold T. rewrite G1, G2, G3, G4, O2, O3, L4, L5, L6. cbn [orb].
  unfold Tx_reg4. rewrite L1, L2, L3, O1. auto.
Qed.

Ltac ids := match goal with H : In ?o _ |- _ => cbn [In] in H; repeat (destruct H as [<-|H]); [..|contradiction] end.
Ltac zs := repeat match goal with |- context [Z.eqb ?a ?b] => let v := eval vm_compute in (Z.eqb a b) in change (Z.eqb a b) with v end; cbn [orb].
Lemma ids_px o : In o (OV :: OD :: lin_ids) -> Z.eqb o OP = false /\ Z.eqb o OX = false /\ Z.eqb o OT = false.
Proof. intros H. unfold energy_ids in H. ids; auto. Qed.

(* at or below 623.15 K, the end values are those of regions 1 and 2 *)
Lemma px_low p x o : In o (OV :: OD :: lin_ids) -> in_px p x -> inner x ->
  (T_saturation p >? #623.15) = false -> (p >=? P_MIN) = true -> (p <=? Ps_623) = true ->
  px p x o = px p (#0.0) o + x * (px p (#1.0) o - px p (#0.0) o) /\
  px p (#0.0) o = pT_reg1 p (T_saturation p) o /\ px p (#1.0) o = pT_reg2 p (T_saturation p) o.
Proof.
  intros Ho G I HT H1 H2. destruct (ids_px o Ho) as (O1 & O2 & O3).
  destruct (px_mid p x o G I O1 O2) as (-> & -> & ->).
  unfold px_reg4, p2sat_water, p2sat_steam. rewrite (proj1 I), (proj2 I), HT, H1, H2, O1, O3. cbn [andb].
  split; [|auto]. unfold energy_ids in Ho. ids; reflexivity.
Qed.
(* above, those of region 3; OV and OD are treated separately *)
Lemma px_high_lin p x o : In o lin_ids -> in_px p x -> inner x ->
  (T_saturation p >? #623.15) = true -> (p <=? Ps_623) = false -> (nabs (p - PC_WATER) <? FLOAT_ERROR) = false ->
  px p x o = px p (#0.0) o + x * (px p (#1.0) o - px p (#0.0) o).
Proof.
  intros Ho G I HT H2 Hc. destruct (ids_px o (or_intror (or_intror Ho))) as (O1 & O2 & O3).
  destruct (px_mid p x o G I O1 O2) as (-> & -> & ->).
  unfold px_reg4, p2sat_water, p2sat_steam. rewrite (proj1 I), (proj2 I), HT, H2, O1, O3, Hc. rewrite andb_false_r.
  unfold energy_ids in Ho. ids; reflexivity.
Qed.
Lemma px_high_v p x : in_px p x -> inner x ->
  (T_saturation p >? #623.15) = true -> (p <=? Ps_623) = false -> (nabs (p - PC_WATER) <? FLOAT_ERROR) = false ->
  let vl := px p (#0.0) OV in let vv := px p (#1.0) OV in
  px p x OV = #1.0 / (#1.0 / vl) + x * (#1.0 / (#1.0 / vv) - #1.0 / (#1.0 / vl)) /\
  px p x OD = ofZ INVALID_OUTID + x * (ofZ INVALID_OUTID - ofZ INVALID_OUTID).
Proof.
  intros G I HT H2 Hc.
  destruct (px_mid p x OV G I eq_refl eq_refl) as (-> & -> & ->). destruct (px_mid p x OD G I eq_refl eq_refl) as (-> & _ & _).
  unfold px_reg4, p2sat_water, p2sat_steam. rewrite (proj1 I), (proj2 I), HT, H2, Hc. rewrite andb_false_r. split; reflexivity.
Qed.
(* tx: the same, with the branch on T itself *)
Lemma tx_low t x o : let T := t + #273.15 in In o (OV :: OD :: lin_ids) -> in_tx T x -> inner x ->
  (T >? #623.15) = false -> (T <=? #623.15) = true -> (nabs (T - TC_WATER) <? FLOAT_ERROR) = false ->
  tx t x o = tx t (#0.0) o + x * (tx t (#1.0) o - tx t (#0.0) o) /\
  tx t (#0.0) o = pT_reg1 (p_saturation T) T o /\ tx t (#1.0) o = pT_reg2 (p_saturation T) T o.
Proof.
  intros T Ho G I H1 H2 Hc. destruct (ids_px o Ho) as (O1 & O2 & O3).
  destruct (tx_mid t x o G I O1 O3 O2) as (-> & -> & ->). fold T.
  unfold Tx_reg4, T2sat_water, T2sat_steam. rewrite (proj1 I), (proj2 I), H1, H2, O1, O3, Hc.
  split; [|auto]. unfold energy_ids in Ho. ids; reflexivity.
Qed.
Lemma tx_high_lin t x o : let T := t + #273.15 in In o lin_ids -> in_tx T x -> inner x ->
  (T >? #623.15) = true -> (T <=? #623.15) = false -> (nabs (T - TC_WATER) <? FLOAT_ERROR) = false ->
  tx t x o = tx t (#0.0) o + x * (tx t (#1.0) o - tx t (#0.0) o).
Proof.
  intros T Ho G I H1 H2 Hc. destruct (ids_px o (or_intror (or_intror Ho))) as (O1 & O2 & O3).
  destruct (tx_mid t x o G I O1 O3 O2) as (-> & -> & ->). fold T.
  unfold Tx_reg4, T2sat_water, T2sat_steam. rewrite (proj1 I), (proj2 I), H1, H2, O1, O3, Hc.
  unfold energy_ids in Ho. ids; reflexivity.
Qed.
Lemma tx_high_v t x : let T := t + #273.15 in in_tx T x -> inner x ->
  (T >? #623.15) = true -> (T <=? #623.15) = false -> (nabs (T - TC_WATER) <? FLOAT_ERROR) = false ->
  let vl := tx t (#0.0) OV in let vv := tx t (#1.0) OV in
  tx t x OV = #1.0 / (#1.0 / vl) + x * (vv - #1.0 / (#1.0 / vl)) /\
  tx t x OD = ofZ INVALID_OUTID + x * (ofZ INVALID_OUTID - ofZ INVALID_OUTID).
Proof.
  intros T G I H1 H2 Hc.
  destruct (tx_mid t x OV G I eq_refl eq_refl eq_refl) as (-> & -> & ->).
  destruct (tx_mid t x OD G I eq_refl eq_refl eq_refl) as (-> & _ & _). fold T.
  unfold Tx_reg4, T2sat_water, T2sat_steam. rewrite (proj1 I), (proj2 I), H1, H2, Hc. split; reflexivity.
Qed.
End Any.
