(* Energies of wet steam, growth with the quality, enthalpy of the saturated liquid. *)
From Coq Require Import ZArith Reals List Bool Lra Lia.
From Verif Require Import RegionMap SpecSub3 Num RealInst Constant R4Sat Reg1 Reg2 Reg4 Api Spec SpecReal SpecWet SatInv RealSat SatApi Lever LeverReal WetGap
  SpecThermo ThermoApi SpecStable Stab1 TvMap ThMap WetAgree.
Import ListNotations.
Open Scope R_scope.

Definition all_ids : list Z := OV :: energy_ids.
Section Wet.
Variable t : R.
Hypothesis H : 0 <= t <= 350.
Let T := t + 273.15.
Let ps := if97_psat T.
Let Rg : 273.15 <= T <= 623.15. Proof. unfold T. lra. Qed.
Let Pg : 0.0006 < ps < 17. Proof. exact (ps_range t H). Qed.
Lemma ends o : In o all_ids -> @Api.tx RArith t 0 o = ptR 1 o ps t /\ @Api.tx RArith t 1 o = ptR 2 o ps t.
Proof.
  intros Ho. destruct (tx_ends t o ltac:(fold T; lra) Ho) as [-> ->].
  assert (C : @ltb RArith (@nabs RArith (@sub RArith T TC_WATER)) FLOAT_ERROR = false).
  { unfold TC_WATER, FLOAT_ERROR. pose proof Rg. rnum. apply Rlt_b_false. rewrite Rabs_left1; lra. }
  assert (B2 : @leb RArith T (@lit RArith (623.15%dec)) = true) by (pose proof Rg; rnum; apply Rle_b_true; lra).
  unfold T2sat_water, T2sat_steam. cbv zeta. fold T. rewrite C, B2. rewrite psat_real by (pose proof Rg; lra).
  cbn [In all_ids energy_ids] in Ho. destruct Ho as [<-|[<-|[<-|[<-|[<-|[<-|[<-|[]]]]]]]]; split; reflexivity.
Qed.
Lemma line o x : 0 <= x <= 1 -> In o all_ids -> @Api.tx RArith t x o = ptR 1 o ps t + x * (ptR 2 o ps t - ptR 1 o ps t).
Proof. intros Hx Ho. destruct (ends o Ho) as [<- <-]. apply tx_line; [unfold wet_T; fold T; pose proof Rg; lra|exact Hx|exact Ho]. Qed.
Lemma dom r : r = 1%Z \/ r = 2%Z -> formula_domain r ps t.
Proof. intros Hr. pose proof Rg. pose proof Pg. unfold formula_domain. fold T. split; [lra|]. split; [lra|]. destruct Hr as [-> | ->]; [left|right; left]; split; try reflexivity; lra. Qed.
Lemma wet_op x : 0 <= x <= 1 -> @Api.tx RArith t x OP = ps.
Proof.
  intros Hx. destruct (in_tx_R T x ltac:(pose proof Rg; lra) Hx) as (D1 & D2 & D3 & D4). unfold tx. cbv zeta. change (Z.eqb OP OT) with false. change (Z.eqb OP OX) with false. cbv iota.
  change (@add RArith t (@lit RArith (273.15%dec))) with T. rewrite D1, D2, D3, D4. cbn [orb]. cbv iota. unfold Tx_reg4. change (Z.eqb OP OP) with true. cbv iota zeta. apply psat_real. pose proof Rg; lra.
Qed.
Lemma energies x : 0 <= x <= 1 ->
  @Api.tx RArith t x OH = @Api.tx RArith t x OU + 1000 * @Api.tx RArith t x OP * @Api.tx RArith t x OV /\
  @Api.tx RArith t x OG = @Api.tx RArith t x OH - (t + 273.15) * @Api.tx RArith t x OS /\
  @Api.tx RArith t x OF = @Api.tx RArith t x OU - (t + 273.15) * @Api.tx RArith t x OS /\
  @Api.tx RArith t x OE = @Api.tx RArith t x OH - 273.16 * @Api.tx RArith t x OS.
Proof.
  intros Hx. pose proof (dom 1 (or_introl eq_refl)) as D1. pose proof (dom 2 (or_intror eq_refl)) as D2. rewrite (wet_op x Hx). rewrite !line by (exact Hx || (cbn; tauto)).
  rewrite (id_h 1 ps t D1), (id_h 2 ps t D2), (id_g 1 ps t D1), (id_g 2 ps t D2), (id_f 1 ps t D1), (id_f 2 ps t D2), (id_e 1 ps t D1), (id_e 2 ps t D2).
  rewrite !(id_h 1 ps t D1), !(id_h 2 ps t D2). repeat match goal with |- _ /\ _ => split end; repeat match goal with |- context[ptR ?r ?o ps t] => generalize (ptR r o ps t); intro end; generalize ps 273.15 273.16; intros; match goal with |- ?a = ?b => change (@eq R a b) end; ring.
Qed.
Lemma grows o x y : In o [OH; OS; OV] -> 0 <= x -> x < y -> y <= 1 -> @Api.tx RArith t x o < @Api.tx RArith t y o.
Proof.
  intros Ho A B C. assert (Ho' : In o all_ids) by (cbn in Ho |- *; tauto). rewrite (line o x), (line o y) by (lra || exact Ho'). destruct (ends o Ho') as [<- <-].
  destruct (tx_gap t ltac:(fold T; pose proof Rg; lra)) as (G1 & G2 & G3 & G4).
  assert (L : @Api.tx RArith t 0 o < @Api.tx RArith t 1 o) by (cbn [In] in Ho; destruct Ho as [<-|[<-|[<-|[]]]]; lra). nra.
Qed.
End Wet.
Lemma sat_h t1 t2 : 0 <= t1 -> t1 < t2 -> t2 <= 235 -> @Api.tx RArith t1 0 OH < @Api.tx RArith t2 0 OH.
Proof.
  intros A B C. rewrite (proj1 (ends t1 ltac:(lra) OH ltac:(cbn; tauto))), (proj1 (ends t2 ltac:(lra) OH ltac:(cbn; tauto))).
  assert (P : if97_psat (t1 + 273.15) < if97_psat (t2 + 273.15)) by (apply psat_mono; lra). pose proof (ps_range t2 ltac:(lra)) as Pg. cbv beta zeta in Pg. change Kc with 273.15 in Pg.
  apply Rlt_trans with (ptR 1 OH (if97_psat (t2 + 273.15)) t1).
  - apply h_incr1p; [lra|apply (w1 t1 ltac:(lra)); change Kc with 273.15; lra|exact P|lra].
  - apply h_incr1; [unfold Kc; lra|exact B|apply (w1 t2 ltac:(lra)); change Kc with 273.15; lra].
Qed.
(* the same by pressure *)
Lemma tsat_le p : 0.00061121267745 <= p <= 16.5291642526045 -> 0 <= if97_tsat p - 273.15 <= 350 /\ if97_psat (if97_tsat p) = p.
Proof. intros Hp. pose proof psat_273. pose proof psat_647. destruct (psat_tsat p ltac:(lra)) as [A B]. pose proof (tsat_low p ltac:(lra)). split; [lra|exact B]. Qed.
Lemma energies_p p x : 0.00061121267745 <= p <= 16.5291642526045 -> 0 <= x <= 1 ->
  @Api.px RArith p x OH = @Api.px RArith p x OU + 1000 * p * @Api.px RArith p x OV /\
  @Api.px RArith p x OG = @Api.px RArith p x OH - (@Api.px RArith p x OT + 273.15) * @Api.px RArith p x OS /\
  @Api.px RArith p x OF = @Api.px RArith p x OU - (@Api.px RArith p x OT + 273.15) * @Api.px RArith p x OS /\
  @Api.px RArith p x OE = @Api.px RArith p x OH - 273.16 * @Api.px RArith p x OS.
Proof.
  intros Hp Hx. destruct (tsat_le p Hp) as [A B]. pose proof (energies (if97_tsat p - 273.15) A x Hx) as E. rewrite (wet_op _ A x Hx) in E.
  rewrite !(tx_px_all p x) in E by (auto). replace (if97_tsat p - 273.15 + 273.15) with (if97_tsat p) in E by lra. rewrite B in E.
  pose proof (tx_px_all p x OT (or_introl Hp) Hx) as Q. change (@Api.tx RArith (if97_tsat p - 273.15)%R x OT) with (if97_tsat p - 273.15) in Q. rewrite <- Q.
  replace (if97_tsat p - 273.15 + 273.15) with (if97_tsat p) by lra. exact E.
Qed.
Lemma grows_p o p x y : 0.00061121267745 <= p <= 16.5291642526045 -> In o [OH; OS; OV] -> 0 <= x -> x < y -> y <= 1 -> @Api.px RArith p x o < @Api.px RArith p y o.
Proof. intros Hp Ho A B C. destruct (tsat_le p Hp) as [D _]. rewrite <- !(tx_px_all p) by (auto; lra). apply grows; auto. Qed.
