(* Termination: the loops of the model end, and more fuel changes nothing. *)
From Coq Require Import ZArith List Bool Lia.
From Verif Require Import Num Constant Algo R4Sat Boundaries Reg1 Reg2 Reg5 Reg1Back Reg2Back Reg5Back Reg4 Region Api
  Spec LoopFacts.
Import ListNotations.

Lemma loop_pos_more {S R : Type} (body : S -> S + R) (a b : positive) s r :
  (a <= b)%positive -> loop_pos a body s = inr r -> loop_pos b body s = inr r.
Proof. rewrite !loop_pos_nat. intros H. apply loop_nat_more. lia. Qed.

Section Any.
Context {N : Arith}.
Open Scope num_scope.

(* [o] is defined and [o'] agrees with it *)
Definition le_o {A} (o o' : option A) : Prop := forall v, o = Some v -> o' = Some v.

Ltac loop_le H := intros v; match goal with
  | |- match loop_pos ?a ?b ?s with _ => _ end = _ -> _ =>
      destruct (loop_pos a b s) eqn:E; [discriminate|]; rewrite (loop_pos_more b a _ s _ H E); auto end.

Lemma bracket2_le a b fn T y pm p1 p2 y1 y2 bd : (a <= b)%positive ->
  le_o (bracket_reg2 fn a T y pm p1 p2 y1 y2 bd) (bracket_reg2 fn b T y pm p1 p2 y1 y2 bd).
Proof. intros H. unfold bracket_reg2. loop_le H. Qed.
Lemma bracket5_le a b T y p1 p2 y1 y2 bd : (a <= b)%positive ->
  le_o (bracket_reg5 a T y p1 p2 y1 y2 bd) (bracket_reg5 b T y p1 p2 y1 y2 bd).
Proof. intros H. unfold bracket_reg5. loop_le H. Qed.
Lemma Hmin_le a b T h p : (a <= b)%positive -> le_o (th_Hmin a T h p) (th_Hmin b T h p).
Proof. intros H. unfold th_Hmin. loop_le H. Qed.
Lemma liquid_le a b h : (a <= b)%positive -> le_o (hs2T_reg4_liquid a h) (hs2T_reg4_liquid b h).
Proof. intros H. unfold hs2T_reg4_liquid. loop_le H. Qed.
Lemma iter_le a b h s l u : (a <= b)%positive -> le_o (hs2T_reg4_iter a h s l u) (hs2T_reg4_iter b h s l u).
Proof. intros H. unfold hs2T_reg4_iter. loop_le H. Qed.

Lemma le_refl {A} (o : option A) : le_o o o. Proof. intros v; auto. Qed.
Lemma le_if {A} (c : bool) (x y x' y' : option A) : le_o x x' -> le_o y y' -> le_o (if c then x else y) (if c then x' else y').
Proof. destruct c; auto. Qed.
Lemma le_bind {A B} (o o' : option A) (k k' : A -> option B) : le_o o o' -> (forall x, le_o (k x) (k' x)) ->
  le_o (match o with None => None | Some x => k x end) (match o' with None => None | Some x => k' x end).
Proof. intros H K v. destruct o as [x|]; [|discriminate]. rewrite (H x eq_refl). apply K. Qed.

Lemma Tv2_le a b T v : (a <= b)%positive -> le_o (Tv2p_reg2 a T v) (Tv2p_reg2 b T v).
Proof.
  intros H. unfold Tv2p_reg2. cbv zeta. apply le_if; [apply le_refl|]. apply le_if; [apply le_refl|].
  apply le_bind; [apply bracket2_le; exact H|intros x; apply le_refl].
Qed.
Lemma Th2_le a b T v : (a <= b)%positive -> le_o (Th2p_reg2 a T v) (Th2p_reg2 b T v).
Proof.
  intros H. unfold Th2p_reg2. cbv zeta. apply le_if; [apply le_refl|]. apply le_if; [apply le_refl|].
  apply le_bind; [apply bracket2_le; exact H|intros x; apply le_refl].
Qed.
Lemma Tv5_le a b T v : (a <= b)%positive -> le_o (Tv2p_reg5 a T v) (Tv2p_reg5 b T v).
Proof.
  intros H. unfold Tv2p_reg5. cbv zeta. apply le_if; [apply le_refl|]. apply le_if; [apply le_refl|].
  apply le_bind; [apply bracket5_le; exact H|intros x; apply le_refl].
Qed.
Lemma tv2_le a b T v o : (a <= b)%positive -> le_o (tv_reg2 a T v o) (tv_reg2 b T v o).
Proof. intros H. unfold tv_reg2. apply le_bind; [apply Tv2_le; exact H|intros; apply le_refl]. Qed.
Lemma th2_le a b T v o : (a <= b)%positive -> le_o (th_reg2 a T v o) (th_reg2 b T v o).
Proof. intros H. unfold th_reg2. apply le_bind; [apply Th2_le; exact H|intros; apply le_refl]. Qed.
Lemma tv5_le a b T v o : (a <= b)%positive -> le_o (tv_reg5 a T v o) (tv_reg5 b T v o).
Proof. intros H. unfold tv_reg5. apply le_if; [apply le_refl|]. apply le_bind; [apply Tv5_le; exact H|intros; apply le_refl]. Qed.
Lemma hs4_le a b h s o : (a <= b)%positive -> le_o (hs_reg4 a h s o) (hs_reg4 b h s o).
Proof.
  intros H. unfold hs_reg4. apply le_bind; [|intros; apply le_refl]. unfold hs2T_reg4.
  apply le_if; [apply le_refl|]. apply le_bind; [apply le_if; [apply liquid_le; exact H|apply le_refl]|].
  intros [l u]. match goal with |- le_o (let '(a, b) := ?x in _) _ => destruct x as [l1 u1] end.
  match goal with |- le_o (let '(a, b) := ?x in _) _ => destruct x as [l2 u2] end.
  apply le_bind; [apply iter_le; exact H|intros; apply le_refl].
Qed.
Lemma th_region_le a b t h : (a <= b)%positive -> le_o (th_sub_region a t h) (th_sub_region b t h).
Proof.
  intros H. unfold th_sub_region. cbv zeta. apply le_if; [apply le_refl|].
  match goal with |- le_o (let '(a, b) := ?x in _) _ => destruct x as [x1 x2] end.
  match goal with |- le_o (let '(a, b) := ?x in _) _ => destruct x as [[[y1 y2] y3] y4] end.
  apply le_if; [apply le_refl|]. apply le_if; [|apply le_refl].
  apply le_if; [|apply le_refl]. apply le_bind; [apply Hmin_le; exact H|intros; apply le_refl].
Qed.

Lemma pair_le v1 v2 o fr fr' f1 f2 f2' f3 f4 f4' f5 f5' reg :
  le_o (fr v1 v2) (fr' v1 v2) -> (forall o, le_o (f2 v1 v2 o) (f2' v1 v2 o)) ->
  (forall o, le_o (f4 v1 v2 o) (f4' v1 v2 o)) -> (forall o, le_o (f5 v1 v2 o) (f5' v1 v2 o)) ->
  le_o (pair_properties_o v1 v2 o fr f1 f2 f3 f4 f5 reg) (pair_properties_o v1 v2 o fr' f1 f2' f3 f4' f5' reg).
Proof.
  intros A B C D. unfold pair_properties_o. apply le_bind; [apply le_if; [exact A|apply le_refl]|].
  intros r. repeat (apply le_if; [first [apply le_refl|apply B|apply C|apply D|repeat (apply le_if; try apply le_refl; try apply C)]|]).
  apply le_refl.
Qed.

Lemma call_le a b f x y args : (a <= b)%positive -> le_o (call a f x y args) (call b f x y args).
Proof.
  intros H. destruct f; cbn [call]; try apply le_refl; unfold hs, tv, th; destruct (o_id_reg_info args) as [o reg];
    (apply le_if; [apply le_refl|]); (apply le_if; [apply le_refl|]); apply pair_le; intros;
    first [apply le_refl|apply hs4_le; exact H|apply tv2_le; exact H|apply tv5_le; exact H|apply th2_le; exact H|apply th_region_le; exact H].
Qed.

(* ---- bounded loops leave on their own ---- *)
Lemma up_ends p v T r n : (1000001 <= n)%positive -> exists x, loop_pos n (pv2T_reg1_up_round p v) (T, r, 0%Z) = inr x.
Proof.
  intros Hn. rewrite loop_pos_nat.
  apply (loop_nat_ends _ (fun '(_, _, k) => (0 <= k <= 1000000)%Z) (fun '(_, _, k) => (1000000 - k)%Z)); [|lia|lia].
  intros [[T' r'] k] Hk. unfold pv2T_reg1_up_round. 
  repeat match goal with |- context [if ?c then _ else _] => destruct c eqn:?; [exact I|] end. lia.
Qed.
Lemma down_ends p v T r n : (1000001 <= n)%positive -> exists x, loop_pos n (pv2T_reg1_down_round p v) (T, r, 0%Z) = inr x.
Proof.
  intros Hn. rewrite loop_pos_nat.
  apply (loop_nat_ends _ (fun '(_, _, k) => (0 <= k <= 1000000)%Z) (fun '(_, _, k) => (1000000 - k)%Z)); [|lia|lia].
  intros [[T' r'] k] Hk. unfold pv2T_reg1_down_round. 
  repeat match goal with |- context [if ?c then _ else _] => destruct c eqn:?; [exact I|] end. lia.
Qed.
Lemma zoom_once p v Tm T v0 n :
  loop_pos n (pv2T_reg2_zoom_round p v Tm) (T, v0, 0%Z) = inr (if v0 >? v then T - #0.001 else T + #0.001).
Proof.
  apply (loop_pos_more _ 1); [lia|]. cbn [loop_pos]. unfold pv2T_reg2_zoom_round. destruct (v0 >? v); reflexivity.
Qed.

(* ---- the bracket searches ---- *)
Definition next2 (p : num) : num := let q := if p >? #1.0 then p + #1.0 else p in if p <? #1.0 then p * #5.0 else q.

Lemma bracket2_some fn T y pm k : forall fuel p1 p2 y1 y2 bd, (Z.of_nat k + 2 <= Zpos fuel)%Z ->
  bd = true \/ (Nat.iter (S k) next2 p2 >=? pm) = true -> exists r, bracket_reg2 fn fuel T y pm p1 p2 y1 y2 bd = Some r.
Proof.
  intros fuel p1 p2 y1 y2 bd Hf H. unfold bracket_reg2. rewrite loop_pos_nat.
  match goal with |- context [loop_nat ?b _ _] => set (body := b) end.
  assert (G : forall k p1 p2 y1 y2 bd, bd = true \/ (Nat.iter (S k) next2 p2 >=? pm) = true ->
    exists r, loop_nat body (k + 2) (p1, p2, y1, y2, bd) = inr r).
  { assert (One : forall p1 p2 y1 y2, (exists r, body (p1, p2, y1, y2, false) = inr r) \/
      (exists p2' y2' b, body (p1, p2, y1, y2, false) = inl (p2, p2', y2, y2', b) /\
        (b = true \/ (p2' = next2 p2 /\ (next2 p2 >=? pm) = false)))).
    { clear. intros p1 p2 y1 y2. unfold body. cbv beta iota zeta. cbn [negb].
      change (if p2 <? #1.0 then p2 * #5.0 else if p2 >? #1.0 then p2 + #1.0 else p2) with (next2 p2).
      destruct (next2 p2 >=? pm);
        (match goal with |- context [if ?c then inr _ else _] => destruct c end; [left; eauto|right]);
        (match goal with |- context [if ?c then true else _] => destruct c end); do 3 eexists; (split; [reflexivity|]); auto. }
    clear - One. induction k as [|k IH]; intros p1 p2 y1 y2 bd H; (destruct bd; [eexists; reflexivity|]);
      destruct H as [H|H]; try discriminate H.
    - change (0 + 2)%nat with 2%nat. cbn [loop_nat].
      destruct (One p1 p2 y1 y2) as [[r E]|(p2' & y2' & b & E & D)]; rewrite E; [eauto|].
      destruct D as [-> |[_ D]]; [eexists; reflexivity|]. cbn [Nat.iter nat_rect] in H. congruence.
    - change (S k + 2)%nat with (S (k + 2)). cbn [loop_nat]. rewrite iter_S in H.
      destruct (One p1 p2 y1 y2) as [[r E]|(p2' & y2' & b & E & D)]; rewrite E; [eauto|].
      apply IH. destruct D as [-> |[-> D]]; auto. }
  destruct (G k p1 p2 y1 y2 bd H) as [r E].
  exists r. rewrite (loop_nat_more body (k + 2) (Pos.to_nat fuel) _ r ltac:(lia) E). reflexivity.
Qed.

Definition next5 (p : num) : num := #5.0 * p.
Lemma bracket5_some T y k : forall fuel p1 p2 y1 y2 bd, (Z.of_nat k + 2 <= Zpos fuel)%Z ->
  bd = true \/ (Nat.iter (S k) next5 p2 >=? P_MAX5) = true -> exists r, bracket_reg5 fuel T y p1 p2 y1 y2 bd = Some r.
Proof.
  intros fuel p1 p2 y1 y2 bd Hf H. unfold bracket_reg5. rewrite loop_pos_nat.
  match goal with |- context [loop_nat ?b _ _] => set (body := b) end.
  assert (G : forall k p1 p2 y1 y2 bd, bd = true \/ (Nat.iter (S k) next5 p2 >=? P_MAX5) = true ->
    exists r, loop_nat body (k + 2) (p1, p2, y1, y2, bd) = inr r).
  { assert (One : forall p1 p2 y1 y2, (exists r, body (p1, p2, y1, y2, false) = inr r) \/
      (exists p2' y2' b, body (p1, p2, y1, y2, false) = inl (p2, p2', y2, y2', b) /\
        (b = true \/ (p2' = next5 p2 /\ (next5 p2 >=? P_MAX5) = false)))).
    { clear. intros p1 p2 y1 y2. unfold body. cbv beta iota zeta. cbn [negb].
      change (#5.0 * p2) with (next5 p2).
      destruct (next5 p2 >=? P_MAX5);
        (match goal with |- context [if ?c then inr _ else _] => destruct c end; [left; eauto|right]);
        (match goal with |- context [if ?c then true else _] => destruct c end); do 3 eexists; (split; [reflexivity|]); auto. }
    clear - One. induction k as [|k IH]; intros p1 p2 y1 y2 bd H; (destruct bd; [eexists; reflexivity|]);
      destruct H as [H|H]; try discriminate H.
    - change (0 + 2)%nat with 2%nat. cbn [loop_nat].
      destruct (One p1 p2 y1 y2) as [[r E]|(p2' & y2' & b & E & D)]; rewrite E; [eauto|].
      destruct D as [-> |[_ D]]; [eexists; reflexivity|]. cbn [Nat.iter nat_rect] in H. congruence.
    - change (S k + 2)%nat with (S (k + 2)). cbn [loop_nat]. rewrite iter_S in H.
      destruct (One p1 p2 y1 y2) as [[r E]|(p2' & y2' & b & E & D)]; rewrite E; [eauto|].
      apply IH. destruct D as [-> |[-> D]]; auto. }
  destruct (G k p1 p2 y1 y2 bd H) as [r E].
  exists r. rewrite (loop_nat_more body (k + 2) (Pos.to_nat fuel) _ r ltac:(lia) E). reflexivity.
Qed.

(* the enthalpy search ends when the enthalpy stops falling: [rank] falls with it *)
Lemma Hmin_some (rank : num -> Z) B T h p fuel :
  (forall x y, (x <? y) = true -> (rank x < rank y)%Z) -> (forall x, (0 <= rank x <= B)%Z) -> (B + 3 <= Zpos fuel)%Z ->
  exists r, th_Hmin fuel T h p = Some r.
Proof.
  intros Hr Hb Hf. unfold th_Hmin. rewrite loop_pos_nat.
  match goal with |- context [loop_nat ?b _ _] => set (body := b) end.
  assert (Hb' : (0 <= B)%Z) by (specialize (Hb h); lia).
  assert (E : exists r, loop_nat body (Pos.to_nat fuel) (p, h, false) = inr r).
  { apply (loop_nat_ends body (fun _ => True) (fun '(_, h, b) => if b : bool then 0%Z else (1 + rank h)%Z)); [|exact I|].
    - intros [[p' h'] b] _. unfold body. destruct b; cbn [negb]; [exact I|].
      cbv zeta. destruct (_ <? h') eqn:E.
      + split; [exact I|]. apply Hr in E. match type of E with (rank ?x < _)%Z => generalize (Hb h') (Hb x) end. lia.
      + split; [exact I|]. generalize (Hb h'). lia.
    - generalize (Hb h). lia. }
  destruct E as [r E]. rewrite E. eauto.
Qed.
End Any.
