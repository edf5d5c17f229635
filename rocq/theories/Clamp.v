(* The answers of the inverse solvers: inside the region's limits, not a number, or a solution
   to the accuracy of the early return.  Any arithmetic. *)
From Coq Require Import ZArith List Bool.
From Verif Require Import Num Algo Constant R4Sat Reg1 Reg2 Reg5 Reg1Back Reg2Back Reg5Back LoopFacts.
Import ListNotations.
Open Scope num_scope.

Section Any.
Context {N : Arith}.

Definition clamped (lo hi r : num) : Prop := r = lo \/ r = hi \/ ((r <? lo) = false /\ (r >? hi) = false).
(* y is the value of fn at r *)
Definition solved (fn : num -> num) (y r : num) : Prop := (y =? fn r) = true \/ (nabs (y - fn r) <? ESP) = true.

Lemma clamp_lh lo hi x : clamped lo hi (if x <? lo then lo else if x >? hi then hi else x).
Proof. unfold clamped. destruct (x <? lo) eqn:A; [auto|]. destruct (x >? hi) eqn:B; auto. Qed.
Lemma clamp_hl lo hi x : clamped lo hi (if x >? hi then hi else if x <? lo then lo else x).
Proof. unfold clamped. destruct (x >? hi) eqn:B; [auto|]. destruct (x <? lo) eqn:A; auto. Qed.
Lemma clamp_h_l lo hi x : clamped lo hi (let p := if x >? hi then hi else x in if p <? lo then lo else p).
Proof. unfold clamped. cbv zeta. destruct (x >? hi) eqn:B; [destruct (hi <? lo); auto|]. destruct (x <? lo) eqn:A; auto. Qed.
Lemma clamp_l_h lo hi x : clamped lo hi (let p := if x <? lo then lo else x in if p >? hi then hi else p).
Proof. unfold clamped. cbv zeta. destruct (x <? lo) eqn:B; [destruct (lo >? hi); auto|]. destruct (x >? hi) eqn:A; auto. Qed.

Lemma ph2T5 p h : clamped T_MIN5 T_MAX5 (ph2T_reg5 p h).
Proof. apply clamp_lh. Qed.
Lemma ps2T5 p s : clamped T_MIN5 T_MAX5 (ps2T_reg5 p s).
Proof. apply clamp_lh. Qed.
Lemma pv2T5 p v : clamped T_MIN5 T_MAX5 (pv2T_reg5 p v).
Proof. apply clamp_lh. Qed.
Lemma hs2p5 h s : clamped P_MIN5 P_MAX5 (hs2p_reg5 h s).
Proof. apply clamp_lh. Qed.

(* an early return of x when its residual is small, else a clamped value *)
Lemma early lo hi fn y (x z : num) : clamped lo hi z ->
  let r := if nabs (y - fn x) <? ESP then x else z in solved fn y r \/ clamped lo hi r.
Proof. intros C r. unfold r. destruct (nabs (y - fn x) <? ESP) eqn:E; [left; right; exact E|right; exact C]. Qed.

Lemma Th2p5 T h : let r := Th2p_reg5 T h in solved (fun p => pT2h_reg5 p T) h r \/ clamped P_MIN5 P_MAX5 r.
Proof. apply (early _ _ (fun p => pT2h_reg5 p T)). apply clamp_h_l. Qed.
Lemma Ts2p5 T s : let r := Ts2p_reg5 T s in solved (fun p => pT2s_reg5 p T) s r \/ clamped P_MIN5 P_MAX5 r.
Proof. apply (early _ _ (fun p => pT2s_reg5 p T)). apply clamp_hl. Qed.
Lemma Ts2p2 T s : let r := Ts2p_reg2 T s in solved (fun p => pT2s_reg2 p T) s r \/ clamped P_MIN2 (T2pmax_reg2 T) r.
Proof. apply (early _ _ (fun p => pT2s_reg2 p T)). apply clamp_lh. Qed.
Lemma Ts2p1 T s : let r := Ts2p_reg1 T s in solved (fun p => pT2s_reg1 p T) s r \/ clamped (p_saturation T) P_MAX1 r.
Proof. apply (early _ _ (fun p => pT2s_reg1 p T)). apply clamp_hl. Qed.
Lemma Th2p1 T h : clamped (p_saturation T) P_MAX1 (Th2p_reg1 T h).
Proof.
  unfold Th2p_reg1. cbv zeta.
  match goal with |- context [if ?c then _ else _] => destruct c end; [left; reflexivity|].
  match goal with |- context [if ?c then _ else _] => destruct c end; [right; left; reflexivity|].
  apply clamp_h_l.
Qed.

Lemma bracket5_inl fuel T v p1 p2 v1 v2 b p : bracket_reg5 fuel T v p1 p2 v1 v2 b = Some (inl p) ->
  solved (fun p => pT2v_reg5 p T) v p.
Proof.
  unfold bracket_reg5. intros E.
  match type of E with match loop_pos fuel ?f ?s with _ => _ end = _ =>
    generalize (loop_pos_inv f (fun _ => True) (fun r => match r with inl p => solved (fun p => pT2v_reg5 p T) v p | inr _ => True end) fuel s) end.
  intros I. match type of I with ?X -> _ => assert (G : X) end.
  { clear. intros [[[[p1 p2] v1] v2] b] _. destruct b; cbn [negb]; [exact I|]. cbv beta iota zeta.
    match goal with |- context [let '(a, b) := ?x in _] => destruct x as [q2 b2] end.
    match goal with |- context [if ?c then inr _ else _] => destruct c eqn:E end; [|exact I].
    left. exact E. }
  specialize (I G Logic.I). destruct (loop_pos _ _ _) as [s|r]; [discriminate|]. injection E as ->. exact I.
Qed.
Lemma Tv2p5 fuel T v r : Tv2p_reg5 fuel T v = Some r -> solved (fun p => pT2v_reg5 p T) v r \/ clamped P_MIN5 P_MAX5 r.
Proof.
  unfold Tv2p_reg5. cbv zeta.
  match goal with |- (if ?c then Some _ else _) = _ -> _ => destruct c eqn:E1 end; [intros H; injection H as <-; left; left; exact E1|].
  match goal with |- (if ?c then Some ?p else _) = _ -> _ => destruct c eqn:E2 end;
    [intros H; injection H as <-; left; left; exact E2|].
  destruct (bracket_reg5 _ _ _ _ _ _ _ _) as [[p|[[[q1 q2] w1] w2]]|] eqn:B; [| |discriminate].
  - intros H; injection H as <-. left. eapply bracket5_inl. exact B.
  - intros H; injection H as <-. unfold Tv2p_reg5_finish. apply (early _ _ (fun p => pT2v_reg5 p T)). apply clamp_h_l.
Qed.

Lemma bracket2_inl fn fuel T y pm p1 p2 y1 y2 b p : bracket_reg2 fn fuel T y pm p1 p2 y1 y2 b = Some (inl p) ->
  solved (fun p => fn p T) y p.
Proof.
  unfold bracket_reg2. intros E.
  match type of E with match loop_pos fuel ?f ?s with _ => _ end = _ =>
    generalize (loop_pos_inv f (fun _ => True) (fun r => match r with inl p => solved (fun p => fn p T) y p | inr _ => True end) fuel s) end.
  intros I. match type of I with ?X -> _ => assert (G : X) end.
  { clear. intros [[[[p1 p2] v1] v2] b] _. destruct b; cbn [negb]; [exact I|]. cbv beta iota zeta.
    match goal with |- context [let '(a, b) := ?x in _] => destruct x as [q2 b2] end.
    match goal with |- context [if ?c then inr _ else _] => destruct c eqn:E end; [|exact I].
    right. exact E. }
  specialize (I G Logic.I). destruct (loop_pos _ _ _) as [s|r]; [discriminate|]. injection E as ->. exact I.
Qed.
Lemma Tv2p2 fuel T v r : Tv2p_reg2 fuel T v = Some r -> solved (fun p => pT2v_reg2 p T) v r \/ clamped P_MIN2 (T2pmax_reg2 T) r.
Proof.
  unfold Tv2p_reg2. cbv zeta.
  match goal with |- (if ?c then Some _ else _) = _ -> _ => destruct c eqn:E1 end; [intros H; injection H as <-; left; right; exact E1|].
  match goal with |- (if ?c then Some ?p else _) = _ -> _ => destruct c eqn:E2 end;
    [intros H; injection H as <-; left; right; exact E2|].
  destruct (bracket_reg2 _ _ _ _ _ _ _ _ _ _) as [[p|[[[q1 q2] w1] w2]]|] eqn:B; [| |discriminate].
  - intros H; injection H as <-. left. eapply bracket2_inl. exact B.
  - intros H; injection H as <-. unfold Tv2p_reg2_finish. apply (early _ _ (fun p => pT2v_reg2 p T)). apply clamp_lh.
Qed.
Lemma Th2p2 fuel T h r : Th2p_reg2 fuel T h = Some r -> solved (fun p => pT2h_reg2 p T) h r \/ clamped P_MIN2 (T2pmax_reg2 T) r.
Proof.
  unfold Th2p_reg2. cbv zeta.
  match goal with |- (if ?c then Some _ else _) = _ -> _ => destruct c eqn:E1 end; [intros H; injection H as <-; left; right; exact E1|].
  match goal with |- (if ?c then Some ?p else _) = _ -> _ => destruct c eqn:E2 end;
    [intros H; injection H as <-; left; right; exact E2|].
  destruct (bracket_reg2 _ _ _ _ _ _ _ _ _ _) as [[p|[[[q1 q2] w1] w2]]|] eqn:B; [| |discriminate].
  - intros H; injection H as <-. left. eapply bracket2_inl. exact B.
  - intros H; injection H as <-. unfold Th2p_reg2_finish. apply (early _ _ (fun p => pT2h_reg2 p T)). apply clamp_l_h.
Qed.

(* the temperature of pv in region 1 *)
Definition near1 (r : num) : Prop :=
  r = ofZ INVALID_VALUE \/ clamped T_MIN1 T_MAX1 r \/ exists T, clamped T_MIN1 T_MAX1 T /\ r = T + #0.01.
End Any.
