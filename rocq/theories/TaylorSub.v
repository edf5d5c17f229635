(* More on enclosures: the same polynomial over a part of the box, bounds that bisect the
   box, the natural logarithm. *)
From Coq Require Import ZArith Reals List Bool Floats Lra Lia Psatz.
From Coquelicot Require Import Coquelicot.
From Interval Require Import Tactic.
From Verif Require Import Num RealInst FloatInst FloatOrder FloatErr FloatUp TaylorAlg Taylor TaylorSum.
Import ListNotations.
Open Scope R_scope.

(* ---- the computation ---- *)
Definition idu : tm := TM [[0%float]; [1%float]] 0%float.
Definition tone : tm := cst 1%float.
(* a polynomial in v, at V; a polynomial in u and v, at (U, v) and at (u, V) *)
Fixpoint hs1 (k : nat) (V : tm) (r : row) : tm :=
  match r with [] => TM [] 0%float | a :: r' => tadd (cst a) (tmul k V (hs1 k V r')) end.
Fixpoint hsu (k : nat) (U : tm) (c : poly) : tm :=
  match c with [] => TM [] 0%float | r :: c' => tadd (TM [r] 0%float) (tmul k U (hsu k U c')) end.
Fixpoint hsv (k : nat) (V : tm) (c : poly) : tm :=
  match c with [] => TM [] 0%float | r :: c' => tadd (hs1 k V r) (tmul k idu (hsv k V c')) end.
Definition small (t : tm) : bool := PrimFloat.leb 0 (nrm t) && PrimFloat.leb (nrm t) 0x1p1000%float.
Definition reu (k : nat) (U : tm) (t : tm) : tm :=
  let t := tlin k [(1%float, t)] in
  if small t then tadd (hsu k U (tc t)) (TM [] (te t)) else tbad.
Definition rev (k : nat) (V : tm) (t : tm) : tm :=
  let t := tlin k [(1%float, t)] in
  if small t then tadd (hsv k V (tc t)) (TM [] (te t)) else tbad.
(* the variable of the box x0 .. x1 as a function of x *)
Definition aff (k : nat) (X : tm) (x0 x1 : float) : tm :=
  tmul k (tsub (tsub (tadd X X) (cst x0)) (cst x1)) (tinv k (tsub (cst x1) (cst x0))).

(* the weight of the powers of u and of v, to choose where to cut *)
Definition sab (r : row) : float := fold_left (fun s x => s + PrimFloat.abs x)%float r 0%float.
Definition wts (t : tm) : float * float :=
  if PrimFloat.leb (nrm t) 0x1p1000 then
    let c := tc t in
    (fold_left (fun s r => s + sab r) (tl c) 0, fold_left (fun s r => s + sab (tl r)) c 0)%float
  else (0%float, 0%float).
Section Inner.
Variable k : nat.
Variable test : list tm -> bool.
Variable pick : list tm -> list tm.
Variable out : float -> float -> float -> float -> bool.
Fixpoint inner (n : nat) (x0 x1 y0 y1 : float) (l : list tm) : bool :=
  if test l then true else
  if out x0 x1 y0 y1 then true else
  match n with
  | O => false
  | S n' =>
     let w := fold_left (fun a t => let w := wts t in (fst a + fst w, snd a + snd w)%float) (pick l) (0%float, 0%float) in
     if PrimFloat.ltb (snd w) (fst w) then
       let m := vmid x0 x1 in
       let go a b := if between a b then inner n' a b y0 y1 (map (reu k (aff k (varu a b) x0 x1)) l) else false in
       if go x0 m then go m x1 else false
     else
       let m := vmid y0 y1 in
       let go a b := if between a b then inner n' x0 x1 a b (map (rev k (aff k (varv a b) y0 y1)) l) else false in
       if go y0 m then go m y1 else false
  end.
End Inner.

(* ln X = ln c + 2 artanh ((X - c) / (X + c)) *)
Definition lnl : list (float * float) :=
  [(0.125, -0x1.0a2b23f3bab73p+1); (0.25, -0x1.62e42fefa39efp+0); (0.5, -0x1.62e42fefa39efp-1); (1, 0); (2, 0x1.62e42fefa39efp-1); (4, 0x1.62e42fefa39efp+0);
   (8, 0x1.0a2b23f3bab73p+1); (16, 0x1.62e42fefa39efp+1); (32, 0x1.bb9d3beb8c86bp+1); (64, 0x1.0a2b23f3bab73p+2)]%float.
Definition lnw (k : nat) (c : float) (X : tm) : tm := tmul k (tsub X (cst c)) (tinv k (tadd X (cst c))).
Definition lnh : list (Z * positive * float) :=
  [(2, 21%positive, 0x1.8618618618618p-4%float); (2, 19%positive, 0x1.af286bca1af28p-4%float); (2, 17%positive, 0x1.e1e1e1e1e1e1ep-4%float);
   (2, 15%positive, 0x1.1111111111111p-3%float); (2, 13%positive, 0x1.3b13b13b13b14p-3%float); (2, 11%positive, 0x1.745d1745d1746p-3%float);
   (2, 9%positive, 0x1.c71c71c71c71cp-3%float); (2, 7%positive, 0x1.2492492492492p-2%float); (2, 5%positive, 0x1.999999999999ap-2%float);
   (2, 3%positive, 0x1.5555555555555p-1%float); (2, 1%positive, 2%float)]%Z.
Definition tln (k : nat) (X : tm) : tm :=
  match find (fun q => absle (lnw k (fst q) X) 0.25) lnl with
  | Some (c, lc) =>
     let W := lnw k c X in
     let W2 := tmul k W W in
     let S := fold_left (fun s a => tlin k [(1%float, tmul k W2 s); (snd a, tone)]) lnh (TM [] 0%float) in
     tadd (tlin k [(lc, tone); (1%float, tmul k W S)]) (TM [] 0x1p-44%float)
  | None => tbad
  end.

(* ---- soundness ---- *)
Section Sem.
Variables u v : R.
Hypothesis Hu : Rabs u <= 1.
Hypothesis Hv : Rabs v <= 1.
Notation ok := (ok u v).
Lemma ok_err e x : (fin e -> Rabs x <= val e) -> ok (TM [] e) x.
Proof. intros H. split; [apply wf_TM|]. intros F _. cbn [te tc TM] in *. change (L2 u v []) with 0. rewrite Rminus_0_r. exact (H F). Qed.
Lemma ok_tone : ok tone 1.
Proof. pose proof (ok_cst u v 1%float) as O. rewrite (proj2 one_val) in O. exact O. Qed.
Lemma ok_idu : ok idu u.
Proof.
  split; [apply wf_TM|]. intros _ _. cbn [idu te tc TM]. unfold L2, L1, Ll. cbn [fold_right]. rewrite zero_val, (proj2 one_val).
  replace (u - _) with 0 by ring. rewrite Rabs_R0. lra.
Qed.
Lemma ok_row r : ok (TM [r] 0%float) (L1 v r).
Proof.
  split; [apply wf_TM|]. intros _ _. cbn [te tc TM]. unfold L2, Ll. cbn [fold_right]. rewrite zero_val.
  replace (L1 v r - _) with 0 by ring. rewrite Rabs_R0. lra.
Qed.
Lemma hs1_ok k V w r : ok V w -> ok (hs1 k V r) (L1 w r).
Proof.
  intros H. induction r as [|a r IH]; cbn [hs1].
  - apply ok_err. intros _. change (L1 w []) with 0. rewrite Rabs_R0, zero_val. lra.
  - rewrite L1_cons. apply (ok_add u v Hu Hv); [apply ok_cst|apply (ok_mul u v Hu Hv); assumption].
Qed.
Lemma hsu_ok k U w c : ok U w -> ok (hsu k U c) (L2 w v c).
Proof.
  intros H. induction c as [|r c IH]; cbn [hsu].
  - apply ok_err. intros _. change (L2 w v []) with 0. rewrite Rabs_R0, zero_val. lra.
  - rewrite L2_cons. apply (ok_add u v Hu Hv); [apply ok_row|apply (ok_mul u v Hu Hv); assumption].
Qed.
Lemma hsv_ok k V w c : ok V w -> ok (hsv k V c) (L2 u w c).
Proof.
  intros H. induction c as [|r c IH]; cbn [hsv].
  - apply ok_err. intros _. change (L2 u w []) with 0. rewrite Rabs_R0, zero_val. lra.
  - rewrite L2_cons. apply (ok_add u v Hu Hv); [apply hs1_ok; exact H|apply (ok_mul u v Hu Hv); [exact ok_idu|exact IH]].
Qed.
Lemma ok_lin1 k t x f c : ok t x -> Rabs (c - val f) <= / 1125899906842624 * Rabs (val f) -> ok (tlin k [(f, t)]) (c * x).
Proof.
  intros H1 H2. pose proof (ok_lin u v Hu Hv k [(f, t)] [(c, x)]) as X. unfold lval in X. cbn [fold_right fst snd] in X. rewrite Rplus_0_r in X.
  apply X. constructor; [|constructor]. split; assumption.
Qed.
Lemma rel_self f : Rabs (val f - val f) <= / 1125899906842624 * Rabs (val f).
Proof. replace (val f - val f) with 0 by ring. rewrite Rabs_R0. pose proof (Rabs_pos (val f)). lra. Qed.
Lemma ok_lin_one k t x : ok t x -> ok (tlin k [(1%float, t)]) x.
Proof.
  intros H. replace x with (val 1%float * x) by (rewrite (proj2 one_val); ring). apply ok_lin1; [exact H|apply rel_self].
Qed.
Lemma ok_lin2 k f c t z g d s w : ok t z -> ok s w -> Rabs (c - val f) <= / 1125899906842624 * Rabs (val f) ->
  Rabs (d - val g) <= / 1125899906842624 * Rabs (val g) -> ok (tlin k [(f, t); (g, s)]) (c * z + d * w).
Proof.
  intros H1 H2 H3 H4. pose proof (ok_lin u v Hu Hv k [(f, t); (g, s)] [(c, z); (d, w)]) as X.
  unfold lval in X. cbn [fold_right fst snd] in X. rewrite Rplus_0_r in X. apply X.
  constructor; [split; assumption|]. constructor; [split; assumption|constructor].
Qed.
Lemma ok_lin3 k f c t z g d s w h e r x : ok t z -> ok s w -> ok r x -> Rabs (c - val f) <= / 1125899906842624 * Rabs (val f) ->
  Rabs (d - val g) <= / 1125899906842624 * Rabs (val g) -> Rabs (e - val h) <= / 1125899906842624 * Rabs (val h) ->
  ok (tlin k [(f, t); (g, s); (h, r)]) (c * z + d * w + e * x).
Proof.
  intros H1 H2 H0 H3 H4 H5. pose proof (ok_lin u v Hu Hv k [(f, t); (g, s); (h, r)] [(c, z); (d, w); (e, x)]) as X.
  unfold lval in X. cbn [fold_right fst snd] in X. rewrite Rplus_0_r, <- Rplus_assoc in X. apply X.
  constructor; [split; assumption|]. constructor; [split; assumption|]. constructor; [split; assumption|constructor].
Qed.
Lemma aff_ok k X x x0 x1 : ok X x -> ok (aff k X x0 x1) (upos x0 x1 x).
Proof.
  intros H. unfold aff, upos, Rdiv. apply (ok_mul u v Hu Hv).
  - replace (2 * x - (val x0 + val x1)) with (x + x - val x0 - val x1) by ring.
    apply (ok_sub u v Hu Hv); [apply (ok_sub u v Hu Hv); [apply (ok_add u v Hu Hv); exact H|]|]; apply ok_cst.
  - apply (ok_inv u v Hu Hv). apply (ok_sub u v Hu Hv); apply ok_cst.
Qed.
End Sem.
Lemma small_ok u v t x : ok u v t x -> small t = true -> f2 (tc t).
Proof.
  intros [W _] H. apply andb_true_iff in H as [H1 H2]. assert (Fb : fin 0x1p1000%float) by (eapply fin_SF; vm_compute; reflexivity).
  assert (F : fin (nrm t)) by (eapply fin_between; [exact zero_fin|exact Fb|exact H1|exact H2]).
  exact (proj1 (proj2 (nrm_ok _ W F))).
Qed.
Lemma reu_ok k U t x u v u' : Rabs u <= 1 -> Rabs v <= 1 -> Rabs u' <= 1 -> ok u' v U u -> ok u v t x -> ok u' v (reu k U t) x.
Proof.
  intros Hu Hv Hu' HU H. unfold reu. cbv zeta. set (s := tlin k [(1%float, t)]).
  assert (Hs : ok u v s x) by (apply ok_lin_one; assumption). clearbody s.
  destruct (small s) eqn:E; [|apply ok_bad]. replace x with (L2 u v (tc s) + (x - L2 u v (tc s))) by ring.
  apply (ok_add u' v Hu' Hv); [apply hsu_ok; assumption|]. apply ok_err. intros F. apply (proj2 Hs F). eapply small_ok; [exact Hs|exact E].
Qed.
Lemma rev_ok k V t x u v v' : Rabs u <= 1 -> Rabs v <= 1 -> Rabs v' <= 1 -> ok u v' V v -> ok u v t x -> ok u v' (rev k V t) x.
Proof.
  intros Hu Hv Hv' HU H. unfold rev. cbv zeta. set (s := tlin k [(1%float, t)]).
  assert (Hs : ok u v s x) by (apply ok_lin_one; assumption). clearbody s.
  destruct (small s) eqn:E; [|apply ok_bad]. replace x with (L2 u v (tc s) + (x - L2 u v (tc s))) by ring.
  apply (ok_add u v' Hu Hv'); [apply hsv_ok; assumption|]. apply ok_err. intros F. apply (proj2 Hs F). eapply small_ok; [exact Hs|exact E].
Qed.

Section InnerOk.
Variable k : nat.
Variable test : list tm -> bool.
Variable pick : list tm -> list tm.
Variable out : float -> float -> float -> float -> bool.
Variables (x y : R) (xs : list R) (Q : Prop).
Hypothesis test_ok : forall u v l, Rabs u <= 1 -> Rabs v <= 1 -> Forall2 (ok u v) l xs -> test l = true -> Q.
Hypothesis out_ok : forall x0 x1 y0 y1, out x0 x1 y0 y1 = true -> val x0 <= x <= val x1 -> val y0 <= y <= val y1 -> Q.
Lemma inner_ok n : forall x0 x1 y0 y1 l, val x0 < val x1 -> val y0 < val y1 -> val x0 <= x <= val x1 -> val y0 <= y <= val y1 ->
  Forall2 (ok (upos x0 x1 x) (upos y0 y1 y)) l xs -> inner k test pick out n x0 x1 y0 y1 l = true -> Q.
Proof.
  induction n as [|n IH]; intros x0 x1 y0 y1 l Lx Ly Hx Hy Hl H; cbn [inner] in H;
    pose proof (upos_le x0 x1 x Lx Hx) as Hu; pose proof (upos_le y0 y1 y Ly Hy) as Hv;
    destruct (test l) eqn:E; try (eapply test_ok; [exact Hu|exact Hv|exact Hl|exact E]); clear E;
    destruct (out x0 x1 y0 y1) eqn:E; try (eapply out_ok; eassumption); clear E; [discriminate H|].
  cbv zeta in H. match type of H with (if ?c then _ else _) = _ => destruct c end.
  - assert (G : forall a b, (if between a b then inner k test pick out n a b y0 y1 (map (reu k (aff k (varu a b) x0 x1)) l) else false) = true ->
      val a <= x <= val b -> Q).
    { intros a b. destruct (between a b) eqn:E; [|discriminate]. destruct (between_ok _ _ E) as (_ & _ & L). intros R Hab.
      pose proof (upos_le a b x L Hab) as Hu'.
      apply (IH a b y0 y1 _ L Ly Hab Hy) with (2 := R). clear -Hu Hv Hu' Hl L Hab. induction Hl as [|t z l xs H1 H2 IH]; [constructor|].
      cbn [map]. constructor; [|exact IH]. apply (reu_ok k _ t z (upos x0 x1 x) _ _ Hu Hv Hu'); [|exact H1].
      apply (aff_ok _ _ Hu' Hv). apply ok_varu; [exact L|exact Hab|reflexivity]. }
    set (m := vmid x0 x1) in *.
    match type of H with (if ?c then ?d else false) = true => destruct c eqn:E1; [|discriminate H] end.
    destruct (Rle_or_lt x (val m)); [exact (G _ _ E1 ltac:(lra))|exact (G _ _ H ltac:(lra))].
  - assert (G : forall a b, (if between a b then inner k test pick out n x0 x1 a b (map (rev k (aff k (varv a b) y0 y1)) l) else false) = true ->
      val a <= y <= val b -> Q).
    { intros a b. destruct (between a b) eqn:E; [|discriminate]. destruct (between_ok _ _ E) as (_ & _ & L). intros R Hab.
      pose proof (upos_le a b y L Hab) as Hv'.
      apply (IH x0 x1 a b _ Lx L Hx Hab) with (2 := R). clear -Hu Hv Hv' Hl L Hab. induction Hl as [|t z l xs H1 H2 IH]; [constructor|].
      cbn [map]. constructor; [|exact IH]. apply (rev_ok k _ t z _ (upos y0 y1 y) _ Hu Hv Hv'); [|exact H1].
      apply (aff_ok _ _ Hu Hv'). apply ok_varv; [exact L|exact Hab|reflexivity]. }
    set (m := vmid y0 y1) in *.
    match type of H with (if ?c then ?d else false) = true => destruct c eqn:E1; [|discriminate H] end.
    destruct (Rle_or_lt y (val m)); [exact (G _ _ E1 ltac:(lra))|exact (G _ _ H ltac:(lra))].
Qed.
End InnerOk.

(* ---- the logarithm ---- *)
Definition sh (w2 : R) : R := fold_left (fun s a => 1 * (w2 * s) + IZR (fst (fst a)) / IZR (Zpos (snd (fst a))) * 1) lnh 0.
Lemma artanh_series w : Rabs w <= / 4 -> Rabs (ln ((1 + w) / (1 - w)) - w * sh (w * w)) <= / 17592186044416.
Proof.
  intros H. assert (- / 4 <= w <= / 4) by (split; [|]; pose proof (Rle_abs w); pose proof (Rle_abs (- w)); rewrite Rabs_Ropp in *; lra). unfold sh, lnh. cbn [fold_left fst snd].
  unfold Rdiv at 1. rewrite ln_mult by (try apply Rinv_0_lt_compat; lra). rewrite ln_Rinv by lra.
  interval with (i_taylor w, i_degree 40, i_prec 100).
Qed.
Ltac flq_val := repeat match goal with |- context [val ?f] => let q := eval vm_compute in (flq f) in
  match q with Some (?a, ?b) => rewrite (proj2 (flq_ok f a b eq_refl)) end end.
Lemma lnl_ok : List.Forall (fun q => 0 < val (fst q) /\ Rabs (ln (val (fst q)) - val (snd q)) <= / 1125899906842624 * Rabs (val (snd q))) lnl.
Proof.
  unfold lnl. repeat match goal with |- List.Forall _ (_ :: _) => constructor | |- List.Forall _ [] => constructor end; cbn [fst snd].
  all: try (flq_val; split; [lra|]; interval with (i_prec 100)).
  rewrite zero_val, (proj2 one_val), ln_1. split; [lra|]. replace (0 - 0) with 0 by ring. rewrite Rabs_R0. lra.
Qed.
Lemma lnh_ok : List.Forall (fun a => Rabs (IZR (fst (fst a)) / IZR (Zpos (snd (fst a))) - val (snd a)) <= / 1125899906842624 * Rabs (val (snd a))) lnh.
Proof.
  unfold lnh. repeat match goal with |- List.Forall _ (_ :: _) => constructor | |- List.Forall _ [] => constructor end; cbn [fst snd]; apply ratok_ok; vm_compute; reflexivity.
Qed.
Lemma quarter_val : fin 0.25%float /\ val 0.25%float = / 4.
Proof. split; [eapply fin_SF; vm_compute; reflexivity|]. flq_val. lra. Qed.
Lemma tln_ok u v k X x : Rabs u <= 1 -> Rabs v <= 1 -> 0 < x -> ok u v X x -> ok u v (tln k X) (ln x).
Proof.
  intros Hu Hv Px H. unfold tln. destruct (find _ lnl) as [[c lc]|] eqn:E; [|apply ok_bad]. apply find_some in E as [HI HA]. cbn [fst] in HA.
  pose proof lnl_ok as F. rewrite Forall_forall in F. destruct (F _ HI) as [Pc Hc]. cbn [fst snd] in *. cbv zeta. set (W := lnw k c X) in *.
  set (w := (x - val c) * / (x + val c)).
  assert (OW : ok u v W w).
  { unfold W, lnw, w. apply (ok_mul u v Hu Hv); [apply (ok_sub u v Hu Hv); [exact H|apply ok_cst]|].
    apply (ok_inv u v Hu Hv). apply (ok_add u v Hu Hv); [exact H|apply ok_cst]. }
  assert (Bw : Rabs w <= / 4).
  { rewrite <- (proj2 quarter_val). apply (absle_ok u v Hu Hv W); [exact OW|exact (proj1 quarter_val)|exact HA]. }
  assert (OS : ok u v (fold_left (fun s a => tlin k [(1%float, tmul k (tmul k W W) s); (snd a, tone)]) lnh (TM [] 0%float)) (sh (w * w))).
  { unfold sh. assert (O0 : ok u v (TM [] 0%float) 0) by (apply ok_err; intros _; rewrite Rabs_R0, zero_val; lra).
    revert O0. pose proof lnh_ok as G. revert G. generalize lnh. generalize (TM [] 0%float). generalize 0. intros s0 t0 l G. revert s0 t0.
    induction G as [|a l G1 G2 IH]; intros s0 t0 O0; cbn [fold_left]; [exact O0|]. apply IH.
    replace 1 with (val 1%float) at 1 by (exact (proj2 one_val)).
    apply (ok_lin2 u v Hu Hv); [apply (ok_mul u v Hu Hv); [apply (ok_mul u v Hu Hv); exact OW|exact O0]|apply ok_tone|apply rel_self|exact G1]. }
  replace (ln x) with (ln (val c) * 1 + val 1%float * (w * sh (w * w)) + (ln x - (ln (val c) + w * sh (w * w)))) by (rewrite (proj2 one_val); ring).
  apply (ok_add u v Hu Hv).
  - apply (ok_lin2 u v Hu Hv); [apply ok_tone|apply (ok_mul u v Hu Hv); [exact OW|exact OS]|exact Hc|apply rel_self].
  - apply ok_err. intros _. replace (val 0x1p-44%float) with (/ 17592186044416) by (symmetry; exact (proj2 pos44)).
    pose proof (artanh_series w Bw) as A. replace (ln x - (ln (val c) + w * sh (w * w))) with (ln ((1 + w) / (1 - w)) - w * sh (w * w)); [exact A|].
    replace ((1 + w) / (1 - w)) with (x / val c) by (unfold w; field; lra). unfold Rdiv. rewrite ln_mult, ln_Rinv; [ring|exact Pc|exact Px|].
    apply Rinv_0_lt_compat. exact Pc.
Qed.
