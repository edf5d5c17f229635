(* Facts about the bounded loops of the model ([loop_pos], Num.v) and the exit
   conditions of the secant solver, for every arithmetic. *)
From Coq Require Import ZArith List Bool Lia.
From Verif Require Import Num Algo.
Import ListNotations.

Section Loop.
Context {S R : Type}.
Variable body : S -> S + R.

(* the same loop, counted in nat *)
Fixpoint loop_nat (n : nat) (s : S) : S + R :=
  match n with
  | O => inl s
  | Datatypes.S n => match body s with inl s1 => loop_nat n s1 | inr r => inr r end
  end.

Lemma loop_nat_add a b s :
  loop_nat (a + b) s = match loop_nat a s with inl s1 => loop_nat b s1 | inr r => inr r end.
Proof. revert s. induction a as [|a IH]; intros s; cbn; [reflexivity|]. destruct (body s); auto. Qed.

Lemma loop_pos_nat n s : loop_pos n body s = loop_nat (Pos.to_nat n) s.
Proof.
  revert s. induction n as [n IH|n IH|]; intros s.
  - rewrite Pos2Nat.inj_xI. cbn [loop_pos]. cbn [loop_nat]. destruct (body s) as [s0|r]; [|reflexivity].
    replace (2 * Pos.to_nat n)%nat with (Pos.to_nat n + Pos.to_nat n)%nat by lia.
    rewrite loop_nat_add, <- IH. destruct (loop_pos n body s0); auto.
  - rewrite Pos2Nat.inj_xO. cbn [loop_pos].
    replace (2 * Pos.to_nat n)%nat with (Pos.to_nat n + Pos.to_nat n)%nat by lia.
    rewrite loop_nat_add, <- IH. destruct (loop_pos n body s); auto.
  - change (Pos.to_nat 1) with 1%nat. cbn. destruct (body s); reflexivity.
Qed.

(* an invariant *)
Lemma loop_nat_inv (P : S -> Prop) (Q : R -> Prop) n s :
  (forall s, P s -> match body s with inl s1 => P s1 | inr r => Q r end) ->
  P s -> match loop_nat n s with inl s1 => P s1 | inr r => Q r end.
Proof.
  intros H. revert s. induction n as [|n IH]; intros s Hs; cbn; [exact Hs|].
  generalize (H s Hs). destruct (body s) as [s1|r]; [apply IH|auto].
Qed.
Lemma loop_pos_inv (P : S -> Prop) (Q : R -> Prop) n s :
  (forall s, P s -> match body s with inl s1 => P s1 | inr r => Q r end) ->
  P s -> match loop_pos n body s with inl s1 => P s1 | inr r => Q r end.
Proof. rewrite loop_pos_nat. apply loop_nat_inv. Qed.

(* the loop has ended: more rounds change nothing *)
Lemma loop_nat_more a b s r : (a <= b)%nat -> loop_nat a s = inr r -> loop_nat b s = inr r.
Proof. intros H E. replace b with (a + (b - a))%nat by lia. rewrite loop_nat_add, E. reflexivity. Qed.

(* a variant: a measure that decreases in every round *)
Lemma loop_nat_ends (P : S -> Prop) (m : S -> Z) n s :
  (forall s, P s -> match body s with inl s1 => P s1 /\ (0 <= m s1 < m s)%Z | inr _ => True end) ->
  P s -> (0 <= m s < Z.of_nat n)%Z -> exists r, loop_nat n s = inr r.
Proof.
  intros H. revert s. induction n as [|n IH]; intros s Hs Hn; [lia|]. cbn.
  generalize (H s Hs). destruct (body s) as [s1|r]; [|eauto]. intros [H1 H2]. apply IH; [exact H1|lia].
Qed.
End Loop.

Section Secant.
Context {N : Arith}.
Open Scope num_scope.

Lemma iter_S {A} (f : A -> A) k x : Nat.iter (Datatypes.S k) f x = Nat.iter k f (f x).
Proof. induction k as [|k IH]; [reflexivity|]. cbn in *. rewrite IH. reflexivity. Qed.

(* one iteration: [g] picks the next guess, [u] is the target function *)
Definition sdx (st : sec_state) : num := (sec_xl st - sec_rts st) * sec_f st / (sec_f st - sec_fl st).
Definition gstep (g : sec_state -> num) (fr : num) (u : num -> num) (st : sec_state) : sec_state :=
  SecState (sec_rts st) (g st) (sec_f st) (fr - u (g st)) (sdx st) (sec_i st + 1).
Definition guess1 (st : sec_state) : num :=
  if (sec_rts st + sdx st) <=? #0.0 then #0.000001 else sec_rts st + sdx st.
Definition guess2 (st : sec_state) : num := sec_rts st + sdx st.

Lemma step1_g fn c fr : sec_step1 fn c fr = gstep guess1 fr (fun x => fn x c).
Proof. reflexivity. Qed.
Lemma step2_g fn c fr : sec_step2 fn c fr = gstep guess2 fr (fun x => fn c x).
Proof. reflexivity. Qed.

(* the loop stops by itself: after k <= i_max steps the loop condition is false *)
Lemma sec_loop_run g fr u xacc i_max st :
  sec_i st = 0%Z ->
  exists k, (k <= Z.to_nat i_max)%nat  /\
    sec_loop (gstep g fr u) xacc i_max st = Nat.iter k (gstep g fr u) st  /\
    sec_cond xacc i_max (Nat.iter k (gstep g fr u) st) = false  /\
    sec_i (Nat.iter k (gstep g fr u) st) = Z.of_nat k  /\
    (forall j, (j < k)%nat -> sec_cond xacc i_max (Nat.iter j (gstep g fr u) st) = true).
Proof.
  intros H0. unfold sec_loop. rewrite loop_pos_nat. set (step := gstep g fr u).
  assert (Hs : forall s, sec_i (step s) = (sec_i s + 1)%Z) by reflexivity.
  set (body := fun s => if sec_cond xacc i_max s then inl (step s) else inr s).
  assert (G : forall n s, (0 <= sec_i s)%Z -> (i_max - sec_i s < Z.of_nat n)%Z -> (0 < n)%nat ->
    exists k, (k <= Z.to_nat (i_max - sec_i s))%nat /\ loop_nat body n s = inr (Nat.iter k step s) /\
      sec_cond xacc i_max (Nat.iter k step s) = false /\ sec_i (Nat.iter k step s) = (sec_i s + Z.of_nat k)%Z /\
      (forall j, (j < k)%nat -> sec_cond xacc i_max (Nat.iter j step s) = true)).
  { induction n as [|n IH]; intros s Hi Hn Hp; [lia|]. cbn [loop_nat]. unfold body at 1.
    destruct (sec_cond xacc i_max s) eqn:E.
    - assert (Hlt : (sec_i s < i_max)%Z).
      { unfold sec_cond in E. apply andb_true_iff in E. destruct E as [E _]. apply andb_true_iff in E. destruct E as [E _].
        apply andb_true_iff in E. destruct E as [_ E]. apply Z.ltb_lt in E. exact E. }
      destruct (IH (step s)) as (k & K1 & K2 & K3 & K4 & K5); [rewrite Hs; lia|rewrite Hs; lia|lia|].
      exists (Datatypes.S k). rewrite iter_S, Hs in *. repeat split; try assumption; try lia.
      intros [|j] Hj; [exact E|]. rewrite iter_S. apply K5. lia.
    - exists 0%nat. cbn. repeat split; try assumption; try lia. }
  destruct (G (Pos.to_nat (Z.to_pos (i_max + 1))) st) as (k & K1 & K2 & K3 & K4 & K5); try lia.
  exists k. rewrite H0 in *. replace (i_max - 0)%Z with i_max in K1 by lia.
  rewrite K2. repeat split; assumption.
Qed.

Definition pts g fr u (k : nat) (st : sec_state) : list num :=
  map (fun j => g (Nat.iter j (gstep g fr u) st)) (seq 0 k).

Lemma pts_len g fr u k st : length (pts g fr u k st) = k.
Proof. unfold pts. rewrite map_length, seq_length. reflexivity. Qed.
Lemma pts_S g fr u k st : pts g fr u (Datatypes.S k) st = pts g fr u k st ++ [g (Nat.iter k (gstep g fr u) st)].
Proof. unfold pts. rewrite seq_S, map_app. reflexivity. Qed.

Lemma agree_iter g fr u u' k st :
  (forall x, In x (pts g fr u k st) -> u' x = u x) ->
  forall j, (j <= k)%nat -> Nat.iter j (gstep g fr u') st = Nat.iter j (gstep g fr u) st.
Proof.
  intros A. induction j as [|j IH]; intros Hj; [reflexivity|].
  change (gstep g fr u' (Nat.iter j (gstep g fr u') st) = gstep g fr u (Nat.iter j (gstep g fr u) st)).
  rewrite IH by lia. unfold gstep at 1 3. rewrite A; [reflexivity|]. unfold pts. apply in_map_iff.
  exists j. split; [reflexivity|]. apply in_seq. lia.
Qed.

(* the loop result depends on the target at those k points only *)
Lemma agree_loop g fr xacc i_max u u' k st :
  (k <= Z.to_nat i_max)%nat ->
  sec_cond xacc i_max (Nat.iter k (gstep g fr u) st) = false ->
  (forall j, (j < k)%nat -> sec_cond xacc i_max (Nat.iter j (gstep g fr u) st) = true) ->
  (forall x, In x (pts g fr u k st) -> u' x = u x) ->
  sec_loop (gstep g fr u') xacc i_max st = Nat.iter k (gstep g fr u) st.
Proof.
  intros Hk C2 C1 A. unfold sec_loop. rewrite loop_pos_nat.
  set (body := fun s => if sec_cond xacc i_max s then inl (gstep g fr u' s) else inr s).
  assert (I := agree_iter g fr u u' k st A).
  assert (G : forall d, (d <= k)%nat -> loop_nat body (Datatypes.S d) (Nat.iter (k - d) (gstep g fr u') st)
     = inr (Nat.iter k (gstep g fr u) st)).
  { induction d as [|d IH]; intros Hd.
    - rewrite Nat.sub_0_r. cbn [loop_nat]. unfold body. rewrite (I k) by lia. rewrite C2. reflexivity.
    - cbn [loop_nat]. unfold body at 1. rewrite (I (k - Datatypes.S d)%nat) by lia. rewrite C1 by lia.
      rewrite <- (I (k - Datatypes.S d)%nat) by lia.
      change (gstep g fr u' (Nat.iter (k - Datatypes.S d) (gstep g fr u') st)) with
        (Nat.iter (Datatypes.S (k - Datatypes.S d)) (gstep g fr u') st).
      replace (Datatypes.S (k - Datatypes.S d)) with (k - d)%nat by lia. apply IH. lia. }
  specialize (G k ltac:(lia)). rewrite Nat.sub_diag in G. change (Nat.iter 0 (gstep g fr u') st) with st in G.
  rewrite (loop_nat_more body (Datatypes.S k) (Pos.to_nat (Z.to_pos (i_max + 1))) _ _ ltac:(lia) G). reflexivity.
Qed.

(* the points visited, with their residuals *)
Lemma trace g fr u k st :
  exists front, (sec_xl st, sec_fl st) :: (sec_rts st, sec_f st) :: map (fun x => (x, fr - u x)) (pts g fr u k st)
   = front ++ [(sec_xl (Nat.iter k (gstep g fr u) st), sec_fl (Nat.iter k (gstep g fr u) st));
               (sec_rts (Nat.iter k (gstep g fr u) st), sec_f (Nat.iter k (gstep g fr u) st))].
Proof.
  induction k as [|k [front IH]].
  - exists []. reflexivity.
  - rewrite pts_S, map_app.
    exists (front ++ [(sec_xl (Nat.iter k (gstep g fr u) st), sec_fl (Nat.iter k (gstep g fr u) st))]).
    rewrite !app_comm_cons, IH. rewrite <- !app_assoc. reflexivity.
Qed.

Lemma cond_exit xacc i_max st : sec_cond xacc i_max st = false ->
  (sec_f st =? #0.0) = true \/ ((sec_f st - sec_fl st) =? #0.0) = true \/ (i_max <= sec_i st)%Z \/
  (nabs (sec_dx st) >? xacc) = false.
Proof.
  unfold sec_cond. intros H. apply andb_false_iff in H. destruct H as [H|H].
  - apply andb_false_iff in H. destruct H as [H|H].
    + apply andb_false_iff in H. destruct H as [H|H]; [auto|]. apply Z.ltb_ge in H. auto.
    + apply negb_false_iff in H. auto.
  - apply negb_false_iff in H. auto.
Qed.

Definition secant g (u : num -> num) (fr x1 x2 fl f xacc : num) (i_max : Z) : num :=
  let st := sec_init x1 x2 fl f in
  if (sec_f st - sec_fl st) !=? #0.0 then sec_rts (sec_loop (gstep g fr u) xacc i_max (sec_dx0 st))
  else sec_rts st.

Lemma secant_exit (clip : num -> num -> Prop) g u fr x1 x2 fl f xacc i_max :
  (forall st, clip (sec_rts st + sdx st) (g st)) ->
  exists evals front xl fxl r fr_,
    secant g u fr x1 x2 fl f xacc i_max = r /\
    (length evals <= Z.to_nat i_max)%nat /\
    (forall u', (forall x, In x evals -> u' x = u x) -> secant g u' fr x1 x2 fl f xacc i_max = r) /\
    (if nabs fl <? nabs f then [(x2, f); (x1, fl)] else [(x1, fl); (x2, f)]) ++ map (fun x => (x, fr - u x)) evals
      = front ++ [(xl, fxl); (r, fr_)] /\
    ((fr_ =? #0.0) = true \/ ((fr_ - fxl) =? #0.0) = true \/ length evals = Z.to_nat i_max \/
     exists dx, (nabs dx >? xacc) = false /\
       ((evals = [] /\ dx = (xl - r) * fr_ / (fr_ - fxl)) \/ (evals <> [] /\ clip (xl + dx) r))).
Proof.
  intros HC. unfold secant.
  assert (HI : (if nabs fl <? nabs f then [(x2, f); (x1, fl)] else [(x1, fl); (x2, f)])
    = [(sec_xl (sec_init x1 x2 fl f), sec_fl (sec_init x1 x2 fl f)); (sec_rts (sec_init x1 x2 fl f), sec_f (sec_init x1 x2 fl f))])
    by (unfold sec_init; destruct (nabs fl <? nabs f); reflexivity).
  assert (Hi0 : sec_i (sec_init x1 x2 fl f) = 0%Z) by (unfold sec_init; destruct (nabs fl <? nabs f); reflexivity).
  rewrite HI. clear HI. revert Hi0. generalize (sec_init x1 x2 fl f). intros s0 Hi0. cbv zeta.
  destruct ((sec_f s0 - sec_fl s0) !=? #0.0) eqn:E.
  - destruct (sec_loop_run g fr u xacc i_max (sec_dx0 s0) Hi0) as (k & K1 & K2 & K3 & K4 & K5).
    destruct (trace g fr u k (sec_dx0 s0)) as [front HT].
    exists (pts g fr u k (sec_dx0 s0)), front,
      (sec_xl (Nat.iter k (gstep g fr u) (sec_dx0 s0))), (sec_fl (Nat.iter k (gstep g fr u) (sec_dx0 s0))),
      (sec_rts (Nat.iter k (gstep g fr u) (sec_dx0 s0))), (sec_f (Nat.iter k (gstep g fr u) (sec_dx0 s0))).
    split; [rewrite K2; reflexivity|]. split; [rewrite pts_len; exact K1|].
    split; [intros u' A; rewrite (agree_loop g fr xacc i_max u u' k _ K1 K3 K5 A); reflexivity|].
    split; [exact HT|]. rewrite pts_len.
    destruct (cond_exit _ _ _ K3) as [H|[H|[H|H]]]; [auto|auto|right; right; left; lia|].
    right; right; right. exists (sec_dx (Nat.iter k (gstep g fr u) (sec_dx0 s0))). split; [exact H|].
    destruct k as [|k].
    + left. split; reflexivity.
    + right. split; [rewrite pts_S; intros A; apply app_eq_nil in A; destruct A as [_ A]; discriminate A|]. cbn. apply HC.
  - exists [], [], (sec_xl s0), (sec_fl s0), (sec_rts s0), (sec_f s0). cbn.
    repeat split; try reflexivity; [lia|]. right; left. apply negb_false_iff in E. exact E.
Qed.
End Secant.
