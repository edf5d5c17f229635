(* The region search of pt against the region definition, over any arithmetic whose
   comparisons come from an order embedding into R. *)
From Coq Require Import ZArith List Bool Reals Lra Lia Floats.
From Verif Require Import Num Constant R4Sat Boundaries Region RealInst FloatInst RegionCodes NanFacts FloatOrder Spec Control Api.
Import ListNotations.
Open Scope num_scope.

Record OrdEmb {N : Arith} (O : num -> Prop) (e : num -> R) : Prop := {
  e_lt : forall x y, O x -> O y -> (x <? y) = Rlt_b (e x) (e y);
  e_le : forall x y, O x -> O y -> (x <=? y) = Rle_b (e x) (e y);
  e_eq : forall x y, O x -> O y -> (x =? y) = Req_b (e x) (e y) }.

(* the constants of the region search are ordered as their decimal values *)
Record ConstOrd {N : Arith} (O : num -> Prop) (e : num -> R) : Prop := {
  k_p0 : O P_MIN; k_p1 : O (#50.0); k_p2 : O (#100.0); k_pc : O PC_WATER;
  k_t0 : O (#273.15); k_t1 : O (#623.15); k_tc : O TC_WATER; k_t2 : O (#863.15); k_t3 : O (#1073.15); k_t4 : O (#2273.15); k_t523 : O (#250.0 + #273.15);
  k_p01 : (e P_MIN < e (#50.0))%R; k_p12 : (e (#50.0) < e (#100.0))%R;
  k_t01 : (e (#273.15) < e (#623.15))%R; k_t1c : (e (#623.15) < e TC_WATER)%R; k_tc2 : (e TC_WATER < e (#863.15))%R;
  k_tlow : (e (#250.0 + #273.15)%num < e (#863.15))%R;
  k_t23 : (e (#863.15) < e (#1073.15))%R; k_t34 : (e (#1073.15) < e (#2273.15))%R }.

Lemma Rlt_b_true x y : (x < y)%R -> Rlt_b x y = true.
Proof. intros; unfold Rlt_b; destruct (Rlt_dec x y); [reflexivity|contradiction]. Qed.
Lemma Rlt_b_false x y : (y <= x)%R -> Rlt_b x y = false.
Proof. intros; unfold Rlt_b; destruct (Rlt_dec x y); [exfalso; lra|reflexivity]. Qed.
Lemma Rle_b_true x y : (x <= y)%R -> Rle_b x y = true.
Proof. intros; unfold Rle_b; destruct (Rle_dec x y); [reflexivity|contradiction]. Qed.
Lemma Rle_b_false x y : (y < x)%R -> Rle_b x y = false.
Proof. intros; unfold Rle_b; destruct (Rle_dec x y); [exfalso; lra|reflexivity]. Qed.
Lemma Rlt_b_inv x y : Rlt_b x y = true -> (x < y)%R.
Proof. unfold Rlt_b; destruct (Rlt_dec x y); [auto|discriminate]. Qed.
Lemma Rle_b_inv x y : Rle_b x y = true -> (x <= y)%R.
Proof. unfold Rle_b; destruct (Rle_dec x y); [auto|discriminate]. Qed.
Lemma Rlt_b_inv_f x y : Rlt_b x y = false -> (y <= x)%R.
Proof. unfold Rlt_b; destruct (Rlt_dec x y); [discriminate|intros _; lra]. Qed.
Lemma Rle_b_inv_f x y : Rle_b x y = false -> (y < x)%R.
Proof. unfold Rle_b; destruct (Rle_dec x y); [discriminate|intros _; lra]. Qed.

Section Any.
Context {N : Arith} (O : num -> Prop) (e : num -> R) (HE : OrdEmb O e) (HK : ConstOrd O e).

Ltac getO := first [ assumption | destruct HK; assumption ].
Ltac leafT := lazymatch goal with
  | |- ltb _ _ = true => rewrite (e_lt _ _ HE) by getO; apply Rlt_b_true; lra
  | |- leb _ _ = true => rewrite (e_le _ _ HE) by getO; apply Rle_b_true; lra
  end.
Ltac leafF := lazymatch goal with
  | |- ltb _ _ = false => rewrite (e_lt _ _ HE) by getO; apply Rlt_b_false; lra
  | |- leb _ _ = false => rewrite (e_le _ _ HE) by getO; apply Rle_b_false; lra
  end.
Ltac bt := lazymatch goal with
  | |- (_ && _) = true => apply andb_true_intro; split; bt
  | |- (_ || _) = true => apply orb_true_intro; first [left; bt | right; bt]
  | |- _ => leafT
  end.
Ltac bf := lazymatch goal with
  | |- (_ && _) = false => apply andb_false_iff; first [left; bf | right; bf]
  | |- (_ || _) = false => apply orb_false_iff; split; bf
  | |- _ => first [assumption | leafF]
  end.
Ltac stepT := match goal with |- (if ?c then _ else _) = _ => replace c with true by (symmetry; solve [bt]); cbv iota end.
Ltac stepF := match goal with |- (if ?c then _ else _) = _ => replace c with false by (symmetry; solve [bf]); cbv iota end.
Ltac step := first [stepF | stepT].
Ltac open H := unfold le, lt in H;
  first [ rewrite (e_lt _ _ HE) in H by getO; apply Rlt_b_inv in H
        | rewrite (e_le _ _ HE) in H by getO; apply Rle_b_inv in H ].

(* not inside the saturation band and not exactly the critical point *)
Definition off_band (p T : num) : Prop :=
  ((#273.15 <=? T) && (T <? TC_WATER) = true ->
   (nabs (p - p_saturation T) / p_saturation T <? #1.0e-6) = false) /\
  (T =? TC_WATER) && (p =? PC_WATER) = false.

Definition comparable (p T : num) : Prop :=
  O p /\ O T /\ O (p_saturation T) /\ O (B23_T2p T).

Lemma step_band {A : Type} p T (a b : A) : off_band p T ->
  (if (#273.15 <=? T) && (T <? TC_WATER) then
     if nabs (p - p_saturation T) / p_saturation T <? pT_sub_region_psatTol then a else b else b) = b.
Proof.
  intros [H _]. unfold pT_sub_region_psatTol. destruct ((#273.15 <=? T) && (T <? TC_WATER)); [|reflexivity].
  rewrite H; reflexivity.
Qed.

Lemma region_map p T r :
  comparable p T -> lt P_MIN p -> le p (#100.0) -> off_band p T ->
  if97_region (p_saturation T) (B23_T2p T) p T r -> pT_sub_region p T = r.
Proof.
  intros (Op & OT & Os & Ob) H0 H1 Hb HR. destruct HK.
  open H0. open H1.
  destruct HR as [A B C|A B C|A B C|A B|A B C|A B C];
  open A; open B; try open C; unfold pT_sub_region; cbv zeta;
  do 3 stepF;
  rewrite (step_band p T _ _ Hb); destruct Hb as [_ Hc];
  repeat step; reflexivity.
Qed.

Lemma region_exists p T : O p -> O T -> O (p_saturation T) -> O (B23_T2p T) ->
  le (#273.15) T -> le T (#2273.15) -> (lt (#1073.15) T -> le p (#50.0)) ->
  exists r, if97_region (p_saturation T) (B23_T2p T) p T r.
Proof.
  intros Op OT Os Ob A B C. destruct HK.
  destruct (T <=? #623.15) eqn:E1.
  - destruct (p_saturation T <=? p) eqn:E2.
    + exists 1%Z. apply if97_1; assumption.
    + exists 2%Z. apply if97_2a; try assumption. unfold lt.
      rewrite (e_le _ _ HE) in E2 by assumption. apply Rle_b_inv_f in E2.
      rewrite (e_lt _ _ HE) by assumption. apply Rlt_b_true; assumption.
  - assert (E1' : lt (#623.15) T).
    { unfold lt. rewrite (e_le _ _ HE) in E1 by assumption. apply Rle_b_inv_f in E1.
      rewrite (e_lt _ _ HE) by assumption. apply Rlt_b_true; assumption. }
    destruct (T <=? #863.15) eqn:E2.
    + destruct (p <=? B23_T2p T) eqn:E3.
      * exists 2%Z. apply if97_2b; assumption.
      * exists 3%Z. apply if97_3; try assumption. unfold lt.
        rewrite (e_le _ _ HE) in E3 by assumption. apply Rle_b_inv_f in E3.
        rewrite (e_lt _ _ HE) by assumption. apply Rlt_b_true; assumption.
    + assert (E2' : lt (#863.15) T).
      { unfold lt. rewrite (e_le _ _ HE) in E2 by assumption. apply Rle_b_inv_f in E2.
        rewrite (e_lt _ _ HE) by assumption. apply Rlt_b_true; assumption. }
      destruct (T <=? #1073.15) eqn:E3.
      * exists 2%Z. apply if97_2c; assumption.
      * assert (E3' : lt (#1073.15) T).
        { unfold lt. rewrite (e_le _ _ HE) in E3 by assumption. apply Rle_b_inv_f in E3.
          rewrite (e_lt _ _ HE) by assumption. apply Rlt_b_true; assumption. }
        exists 5%Z. apply if97_5; auto.
Qed.

(* never an error inside the documented range *)
Lemma region_total p T : comparable p T -> lt P_MIN p -> le p (#100.0) ->
  le (#273.15) T -> le T (#2273.15) -> (lt (#1073.15) T -> le p (#50.0)) ->
  (1 <= pT_sub_region p T <= 5)%Z.
Proof.
  intros Hc H0 H1 A B C.
  destruct (((#273.15 <=? T) && (T <? TC_WATER)) && (nabs (p - p_saturation T) / p_saturation T <? #1.0e-6)) eqn:Eb.
  - assert (E : pT_sub_region p T = 4%Z).
    { destruct Hc as (Op & OT & Os & Ob). destruct HK.
      apply andb_true_iff in Eb. destruct Eb as [Eb1 Eb2].
      assert (Eb3 := Eb1). apply andb_true_iff in Eb3. destruct Eb3 as [_ Eb3].
      open H0. open H1. open A. open B. open Eb3.
      unfold pT_sub_region; cbv zeta. do 3 stepF. rewrite Eb1. unfold pT_sub_region_psatTol. rewrite Eb2. reflexivity. }
    rewrite E; lia.
  - destruct ((T =? TC_WATER) && (p =? PC_WATER)) eqn:Ec.
    + assert (E : pT_sub_region p T = 3%Z).
      { destruct Hc as (Op & OT & Os & Ob). destruct HK.
        assert (Ec1 := Ec). apply andb_true_iff in Ec1. destruct Ec1 as [Ec1 _].
        rewrite (e_eq _ _ HE) in Ec1 by assumption. unfold Req_b in Ec1. destruct (Req_EM_T (e T) (e TC_WATER)) as [Eq|]; [|discriminate].
        open H0. open H1. open A. open B.
        unfold pT_sub_region; cbv zeta. do 4 stepF. rewrite Ec. reflexivity. }
      rewrite E; lia.
    + assert (Hb : off_band p T).
      { split; [|assumption]. intros E. rewrite E in Eb. exact Eb. }
      destruct (region_exists p T) as (r & Hr); try (destruct Hc as (Op & OT & Os & Ob); assumption).
      rewrite (region_map p T r Hc H0 H1 Hb Hr). destruct Hr; lia.
Qed.

(* the out-of-range answers *)
Lemma region_bad_p p T : lt p P_MIN \/ lt (#100.0) p -> pT_sub_region p T = INVALID_P.
Proof. intros H. unfold pT_sub_region, lt in *. destruct H as [-> | ->]; rewrite ?orb_true_r; reflexivity. Qed.
Lemma region_bad_T p T : ~ (lt p P_MIN \/ lt (#100.0) p) -> lt T (#273.15) \/ lt (#2273.15) T ->
  pT_sub_region p T = INVALID_T.
Proof.
  intros Hp H. unfold pT_sub_region, lt in *.
  destruct (p <? P_MIN); [exfalso; tauto|]. destruct (#100.0 <? p); [exfalso; tauto|]. cbn [orb].
  destruct H as [-> | ->]; rewrite ?orb_true_r; reflexivity.
Qed.
Lemma region_bad_p5 p T : O p -> O T -> lt (#1073.15) T -> le T (#2273.15) -> lt (#50.0) p ->
  pT_sub_region p T = INVALID_P.
Proof.
  intros Op OT A B C. destruct HK.
  destruct (p <? P_MIN) eqn:E1; [apply region_bad_p; left; exact E1|].
  destruct (#100.0 <? p) eqn:E2; [apply region_bad_p; right; exact E2|].
  open A; open B; open C.
  unfold pT_sub_region. rewrite E1, E2. cbn [orb]. stepF.
  rewrite (proj2 (andb_true_iff _ _)); [reflexivity|]. split; bt.
Qed.

(* the lowest pressure: vapour states below 623.15 K have no region *)
Lemma region_hole p T : O p -> O T -> O (p_saturation T) ->
  (p =? P_MIN) = true -> le (#273.15) T -> le T (#623.15) -> lt p (p_saturation T) -> off_band p T ->
  pT_sub_region p T = INVALID_VALUE.
Proof.
  intros Op OT Os Hp A B C Hb. destruct HK.
  rewrite (e_eq _ _ HE) in Hp by assumption. unfold Req_b in Hp. destruct (Req_EM_T (e p) (e P_MIN)) as [Eq|]; [|discriminate].
  open A; open B; open C.
  unfold pT_sub_region; cbv zeta. do 3 stepF. rewrite (step_band p T _ _ Hb). destruct Hb as [_ Hc].
  repeat step. reflexivity.
Qed.

(* the saturation band *)
Lemma region_band p T : O p -> O T -> le P_MIN p -> le p (#100.0) -> le (#273.15) T -> lt T TC_WATER ->
  lt (nabs (p - p_saturation T) / p_saturation T) (#1.0e-6) ->
  pT_sub_region p T = 4%Z.
Proof.
  intros Op OT H0 H1 A B C. destruct HK. 
  assert (E : (#273.15 <=? T) && (T <? TC_WATER) = true) by (rewrite A, B; reflexivity).
  open H0; open H1; open A; open B.
  unfold pT_sub_region; cbv zeta. do 3 stepF. rewrite E. unfold pT_sub_region_psatTol, lt in *. rewrite C. reflexivity.
Qed.

(* hot vapour: no guard of tv, th, ts accepts 863.15 < T <= 1073.15 *)
Ltac hot := cbv delta [T_MIN1 T_MIN2 T_MIN3 T_MIN5 T_MAX1 T_MAX2 T_MAX3 T_MAX5];
  cbv beta; intros; fsw
with fsw := lazymatch goal with
  | |- ?P (if ?c then ?a else ?b) => refine (if_false P c a b _ _); [solve [bf]|]; fsw
  | |- ?P (let k := ?v in @?B k) => refine (let_any P v B _); intros; cbv beta in *; fsw
  | |- ?P (match ?x with (_, _) => _ end) => destruct x; fsw
  | |- _ => reflexivity
  end.
Definition is_error (r : Z) : Prop := r = INVALID_VALUE.
Definition is_error_o (r : option Z) : Prop := r = Some INVALID_VALUE.
Lemma tv_hot t v : O (t + #273.15) -> lt (#863.15) (t + #273.15) -> le (t + #273.15) (#1073.15) ->
  is_error (tv_sub_region t v).
Proof.
  intros OT A B. open A; open B. destruct HK.
  cbv beta delta [tv_sub_region]. 
  change (is_error ((fun T => ltac:(let x := eval cbv beta delta [tv_sub_region] in (tv_sub_region t v) in
    match x with let T := _ in @?B T => let y := eval cbv beta in (B T) in exact y end)) (t + #273.15))).
  revert OT A B. generalize (t + #273.15). intros T OT A B. cbv beta. hot.
Qed.
Lemma th_hot fuel t h : O (t + #273.15) -> lt (#863.15) (t + #273.15) -> le (t + #273.15) (#1073.15) ->
  is_error_o (th_sub_region fuel t h).
Proof.
  intros OT A B. open A; open B. destruct HK.
  cbv beta delta [th_sub_region]. 
  change (is_error_o ((fun T => ltac:(let x := eval cbv beta delta [th_sub_region] in (th_sub_region fuel t h) in
    match x with let T := _ in @?B T => let y := eval cbv beta in (B T) in exact y end)) (t + #273.15))).
  revert OT A B. generalize (t + #273.15). intros T OT A B. cbv beta. hot.
Qed.
Lemma ts_hot t s : O (t + #273.15) -> lt (#863.15) (t + #273.15) -> le (t + #273.15) (#1073.15) ->
  ~ (lt S_MAX s \/ lt s S_MIN) -> is_error (ts_sub_region t s).
Proof.
  intros OT A B C. open A; open B. destruct HK. unfold lt in C.
  assert (C' : (S_MAX <? s) || (s <? S_MIN) = false).
  { destruct (S_MAX <? s); [exfalso; auto|]. destruct (s <? S_MIN); [exfalso; auto|reflexivity]. }
  cbv beta delta [ts_sub_region]. 
  change (is_error ((fun T => ltac:(let x := eval cbv beta delta [ts_sub_region] in (ts_sub_region t s) in
    match x with let T := _ in @?B T => let y := eval cbv beta in (B T) in exact y end)) (t + #273.15))).
  revert OT A B. generalize (t + #273.15). intros T OT A B. cbv beta.
  refine (if_false is_error _ _ _ _ _); [solve [bf]|]. rewrite C'. hot.
Qed.
End Any.

(* ---- instances ---- *)
Lemma real_ordemb : @OrdEmb RArith (fun _ => True) (fun x => x).
Proof. constructor; reflexivity. Qed.
Lemma real_constord : @ConstOrd RArith (fun _ => True) (fun x => x).
Proof. constructor; try exact I; cbv beta iota zeta delta [lit add RArith R_of_dec P_MIN TC_WATER dm de Z.pow_pos Pos.iter Z.mul Pos.mul Pos.add Pos.succ]; lra. Qed.

Lemma float_ordemb L : @OrdEmb (FArith L) ordered emb.
Proof. constructor; [apply emb_lt|apply emb_le|apply emb_eq]. Qed.
Lemma float_constord L : @ConstOrd (FArith L) ordered emb.
Proof.
  constructor; try (vm_compute; reflexivity).
  all: change (@lit (FArith L)) with float_of_dec; unfold P_MIN, TC_WATER; cbn [lit FArith add];
   apply Rlt_b_inv; rewrite <- emb_lt by (vm_compute; reflexivity); vm_compute; reflexivity.
Qed.
