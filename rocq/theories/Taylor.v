(* Polynomial enclosures in two variables over binary64: a [tm] is a polynomial in
   (u, v), both between -1 and 1, with binary64 coefficients, and a bound on the
   distance from it.  Sums, products, powers and inverses of enclosed numbers are
   enclosed; the rounding errors of the computation are part of the bound. *)
From Coq Require Import ZArith Reals List Bool Floats Lra Lia Psatz.
From Flocq Require Import Core.Core IEEE754.BinarySingleNaN IEEE754.PrimFloat.
From Verif Require Import Num RealInst FloatInst NanFacts FloatOrder FloatErr FloatUp TaylorAlg.
Import ListNotations.
Open Scope R_scope.

Definition row := list float.
Definition poly := list row.
(* the polynomial, bounds for its parts of each total degree, the tail sums of these
   bounds, the distance *)
Record tm := TMr { tc : poly; td : row; ts : row; te : float }.

(* ---- the computation ---- *)
Definition add1 : row -> row -> row := addl PrimFloat.add.
Definition add2 : poly -> poly -> poly := addl add1.

Fixpoint nrm1 (s : float) (l : row) : float :=
  match l with [] => s | x :: l' => nrm1 (addu s (abs x)) l' end.
Fixpoint nrm2 (s : float) (c : poly) : float :=
  match c with [] => s | r :: c' => nrm2 (nrm1 s r) c' end.

(* x times a polynomial, cut to total degree below n *)
Fixpoint scal1 (n : nat) (x : float) (r : row) {struct r} : row :=
  match r, n with
  | y :: r', S n' => (x * y)%float :: scal1 n' x r'
  | _, _ => []
  end.
Fixpoint scal2 (n : nat) (x : float) (b : poly) {struct b} : poly :=
  match b, n with
  | r :: b', S n' => scal1 n x r :: scal2 n' x b'
  | _, _ => []
  end.
(* x b + acc, with x b cut to total degree below n *)
Fixpoint axpy1 (n : nat) (x : float) (b acc : row) {struct b} : row :=
  match b, n with
  | y :: b', S n' =>
      match acc with
      | [] => scal1 n x b
      | z :: acc' => (x * y + z)%float :: axpy1 n' x b' acc'
      end
  | _, _ => acc
  end.
Fixpoint axpy2 (n : nat) (x : float) (b acc : poly) {struct b} : poly :=
  match b, n with
  | r :: b', S n' =>
      match acc with
      | [] => scal2 n x b
      | q :: acc' => axpy1 n x r q :: axpy2 n' x b' acc'
      end
  | _, _ => acc
  end.
(* products cut to total degree below n *)
Fixpoint tc1 (n : nat) (r : row) (b : poly) {struct r} : poly :=
  match r, n with
  | x :: r', S n' => axpy2 n x b (map (cons 0%float) (tc1 n' r' b))
  | _, _ => []
  end.
Fixpoint tc2 (n : nat) (a b : poly) {struct a} : poly :=
  match a, n with
  | r :: a', S n' => add2 (tc1 n r b) ([] :: tc2 n' a' b)
  | _, _ => []
  end.
(* bounds for the parts of total degree d, and of total degree at least d *)
Definition addz : row -> row -> row := addl addu.
Fixpoint diag (b : poly) : row :=
  match b with [] => [] | r :: b' => addz (map abs r) (0%float :: diag b') end.
Fixpoint sfx (d : row) : row :=
  match d with
  | [] => []
  | x :: d' => match sfx d' with [] => [x] | y :: l => addu x y :: y :: l end
  end.
(* a bound for what a product leaves out *)
Fixpoint cut1 (acc : float) (n : nat) (r l : row) {struct r} : float :=
  match r with [] => acc | x :: r' => cut1 (addu acc (mulu (abs x) (nth n l 0%float))) (Nat.pred n) r' l end.

Definition TM (c : poly) (e : float) : tm := let d := diag c in TMr c d (sfx d) e.
Definition nrm (t : tm) : float := nth 0 (ts t) 0%float.
Definition bad : float := infinity.
Definition tbad : tm := TM [] bad.

Definition cst (f : float) : tm := TM [[f]] 0%float.
(* a constant known up to the relative error 2^-50 *)
Definition rcst (f : float) : tm := TM [[f]] (mulu (abs f) 0x1p-50)%float.

Definition tadd (a b : tm) : tm :=
  TM (add2 (tc a) (tc b)) (addu (addu (te a) (te b)) (mulu (addu (nrm a) (nrm b)) 0x1p-52))%float.
Definition topp (a : tm) : tm := TMr (map (map PrimFloat.opp) (tc a)) (td a) (ts a) (te a).
Definition tsub (a b : tm) : tm := tadd a (topp b).

Definition tmul (k : nat) (a b : tm) : tm :=
  let na := nrm a in
  let nb := nrm b in
  if Nat.leb k 32 then
    TM (tc2 k (tc a) (tc b)) (addu (addu (mulu (te a) (addu nb (te b))) (mulu (te b) na))
               (addu (mulu (mulu na nb) 0x1p-39) (cut1 tup k (td a) (ts b))))%float
  else tbad.

(* a sum of multiples; the factors are known up to the relative error 2^-50 *)
Fixpoint lin (k : nat) (l : list (float * tm)) : poly :=
  match l with [] => [] | (f, t) :: l' => axpy2 k f (tc t) (lin k l') end.
Fixpoint linm (s : float) (l : list (float * tm)) : float :=
  match l with [] => s | (f, t) :: l' => linm (addu s (mulu (abs f) (addu (nrm t) (te t)))) l' end.
Fixpoint line (s : float) (k : nat) (l : list (float * tm)) : float :=
  match l with [] => s | (f, t) :: l' => line (addu s (mulu (abs f) (addu (te t) (nth k (ts t) 0%float)))) k l' end.
Definition tlin (k : nat) (l : list (float * tm)) : tm :=
  if Nat.leb k 32 && Nat.leb (length l) 32 then TM (lin k l) (line (addu tup (mulu (linm 0 l) 0x1p-44)) k l)%float
  else tbad.

(* an approximate inverse by Newton's iteration, not trusted *)
Fixpoint newton (n k : nat) (t : poly) (q : poly) : poly :=
  match n with
  | O => q
  | S n' =>
      let r := add2 [[2%float]] (map (map PrimFloat.opp) (tc2 k t q)) in
      newton n' k t (tc2 k q r)
  end.
Definition tinv (k : nat) (t : tm) : tm :=
  let q := newton 4 k (tc t) (match tc t with (x :: _) :: _ => [[(1 / x)%float]] | _ => [] end) in
  let r := tsub (tmul k t (TM q 0%float)) (cst 1%float) in
  let d := addu (nrm r) (te r) in
  if PrimFloat.leb d 0.5%float then TM q (mulu 2 (mulu (nrm (TM q 0)) d))%float else tbad.

(* the affine functions of the box: x between x0 and x1 is (x0+x1)/2 + u (x1-x0)/2 *)
Definition vmid (x0 x1 : float) : float := ((x0 + x1) * 0.5)%float.
Definition vrad (x0 x1 : float) : float := ((x1 - x0) * 0.5)%float.
Definition verr (x0 x1 : float) : float := (addu (mulu (addu (abs x0) (abs x1)) 0x1p-50) tup)%float.
Definition varu (x0 x1 : float) : tm := TM [[vmid x0 x1]; [vrad x0 x1]] (verr x0 x1).
Definition varv (x0 x1 : float) : tm := TM [[vmid x0 x1; vrad x0 x1]] (verr x0 x1).

(* bounds *)
Definition absle (t : tm) (b : float) : bool :=
  let s := addu (nrm2 0 (tc t)) (te t) in PrimFloat.leb 0 s && PrimFloat.leb s b.
Definition lpos (t : tm) : bool :=
  match tc t with
  | (x :: r) :: c =>
      let s := addu (nrm2 (nrm1 0 r) c) (te t) in
      PrimFloat.leb 0 s && PrimFloat.ltb s x && PrimFloat.leb x 0x1p1000
  | _ => false
  end.
Definition lneg (t : tm) : bool := lpos (topp t).

(* ---- what it means ---- *)
Section Sem.
Variables u v : R.
Hypothesis Hu : Rabs u <= 1.
Hypothesis Hv : Rabs v <= 1.

Definition L1 : row -> R := @Ll float val v.
Definition N1 : row -> R := @Nl float (fun x => Rabs (val x)).
Definition L2 : poly -> R := @Ll row L1 u.
Definition N2 : poly -> R := @Nl row N1.
Definition f1 : row -> Prop := Forall fin.
Definition f2 : poly -> Prop := Forall f1.

(* the number x is enclosed by t at the point (u, v) *)
Definition wf (t : tm) : Prop := td t = diag (tc t) /\ ts t = sfx (td t).
Definition ok (t : tm) (x : R) : Prop :=
  wf t /\ (fin (te t) -> f2 (tc t) -> Rabs (x - L2 (tc t)) <= val (te t)).
Lemma wf_TM c e : wf (TM c e).
Proof. split; reflexivity. Qed.

Notation ul := (/ 9007199254740992).
Lemma zero_fin : fin 0%float. Proof. reflexivity. Qed.
Lemma zero_val : val 0%float = 0. Proof. apply (val_zero _ false). reflexivity. Qed.

Lemma alg0 : alg float fin val (fun x => Rabs (val x)) PrimFloat.add ul.
Proof.
  split.
  - lra.
  - intros. apply Rle_refl.
  - intros a b H. destruct (fin_add _ _ H) as [Ha Hb]. split; [exact Ha|]. split; [exact Hb|].
    pose proof (add_err _ _ H) as E. pose proof (Rabs_triang (val a) (val b)) as T. split; [lra|].
    replace (val (a + b)%float) with ((val (a + b)%float - (val a + val b)) + (val a + val b)) by ring.
    eapply Rle_trans; [apply Rabs_triang|]. lra.
Qed.
Lemma alg1 : alg row f1 L1 N1 add1 ul.
Proof. exact (alg_list alg0 v Hv). Qed.
Lemma alg2 : alg poly f2 L2 N2 add2 ul.
Proof. exact (alg_list alg1 u Hu). Qed.

Lemma L2_le c : Rabs (L2 c) <= N2 c.
Proof. apply (al_N _ _ _ _ _ _ alg2). Qed.
Lemma N1_pos c : 0 <= N1 c.
Proof. eapply Rle_trans; [apply Rabs_pos|apply (al_N _ _ _ _ _ _ alg1)]. Qed.
Lemma N2_pos c : 0 <= N2 c.
Proof. eapply Rle_trans; [apply Rabs_pos|apply L2_le]. Qed.

Lemma abs_pos_val x : 0 <= val (abs x).
Proof. rewrite val_abs. apply Rabs_pos. Qed.
Lemma addu_pos a b : fin (addu a b) -> 0 <= val a -> 0 <= val b -> 0 <= val (addu a b).
Proof. intros F Ha Hb. pose proof (addu_le _ _ F Ha Hb). lra. Qed.

Lemma nrm1_fin l : forall s, fin (nrm1 s l) -> fin s /\ f1 l.
Proof.
  induction l as [|x l IH]; intros s H; cbn [nrm1] in H; [split; [exact H|constructor]|].
  destruct (IH _ H) as [F1 F2]. destruct (addu_fin _ _ F1) as [G1 G2]. apply (proj1 (fin_abs _)) in G2.
  split; [exact G1|constructor; assumption].
Qed.
Lemma nrm1_le l : forall s, fin (nrm1 s l) -> 0 <= val s -> val s + N1 l <= val (nrm1 s l).
Proof.
  induction l as [|x l IH]; intros s H Hs; cbn [nrm1] in *; [cbn; lra|].
  destruct (nrm1_fin _ _ H) as [F1 F2].
  pose proof (addu_le _ _ F1 Hs (abs_pos_val x)) as A. rewrite val_abs in A.
  pose proof (Rabs_pos (val x)).
  specialize (IH _ H ltac:(lra)). cbn [N1 Nl fold_right]. change (fold_right _ 0 l) with (N1 l). lra.
Qed.
Lemma nrm2_fin c : forall s, fin (nrm2 s c) -> fin s /\ f2 c.
Proof.
  induction c as [|r c IH]; intros s H; cbn [nrm2] in H; [split; [exact H|constructor]|].
  destruct (IH _ H) as [F1 F2]. destruct (nrm1_fin _ _ F1) as [G1 G2]. split; [exact G1|constructor; assumption].
Qed.
Lemma nrm2_le c : forall s, fin (nrm2 s c) -> 0 <= val s -> val s + N2 c <= val (nrm2 s c).
Proof.
  induction c as [|r c IH]; intros s H Hs; cbn [nrm2] in *; [cbn; lra|].
  destruct (nrm2_fin _ _ H) as [F1 F2]. pose proof (nrm1_le _ _ F1 Hs) as A. pose proof (N1_pos r).
  specialize (IH _ H ltac:(lra)). cbn [N2 Nl fold_right]. change (fold_right _ 0 c) with (N2 c). lra.
Qed.

Lemma pw_le s w : Rabs w <= 1 -> Rabs (w * s) <= Rabs s.
Proof. intros. rewrite Rabs_mult. pose proof (Rabs_pos s). pose proof (Rabs_pos w). nra. Qed.

(* ---- truncated products ---- *)
Notation tau := (bpow radix2 (-1075)).
Fixpoint tl1 (n : nat) (r : row) {struct r} : R :=
  match r, n with
  | [], _ => 0
  | _ :: r', S n' => tl1 n' r'
  | _ :: _, O => N1 r
  end.
Fixpoint tl2 (n : nat) (b : poly) {struct b} : R :=
  match b, n with
  | [], _ => 0
  | r :: b', S n' => tl1 n r + tl2 n' b'
  | _ :: _, O => N2 b
  end.
Lemma L1_cons x r : L1 (x :: r) = val x + v * L1 r. Proof. reflexivity. Qed.
Lemma N1_cons x r : N1 (x :: r) = Rabs (val x) + N1 r. Proof. reflexivity. Qed.
Lemma L2_cons r c : L2 (r :: c) = L1 r + u * L2 c. Proof. reflexivity. Qed.
Lemma N2_cons r c : N2 (r :: c) = N1 r + N2 c. Proof. reflexivity. Qed.
Lemma L1_le r : Rabs (L1 r) <= N1 r.
Proof. apply (al_N _ _ _ _ _ _ alg1). Qed.
Lemma tau_pos : 0 <= tau. Proof. apply bpow_ge_0. Qed.

Lemma scal1_ok r : forall n x, f1 (scal1 n x r) ->
  Rabs (L1 (scal1 n x r) - val x * L1 r) <= Rabs (val x) * tl1 n r + ul * (Rabs (val x) * N1 r) + INR n * tau /\
  N1 (scal1 n x r) <= (1 + ul) * (Rabs (val x) * N1 r) + INR n * tau.
Proof.
  pose proof tau_pos as Ht.
  induction r as [|y r IH]; intros n x H.
  { cbn [scal1 tl1]. unfold L1, N1, Ll, Nl. cbn [fold_right]. rewrite !Rmult_0_r, Rminus_0_r, Rabs_R0, !Rplus_0_l.
    pose proof (Rmult_le_pos _ _ (pos_INR n) Ht). lra. }
  pose proof (Rabs_pos (val x)) as Px. pose proof (Rabs_pos (val y)) as Py. pose proof (N1_pos r) as Pr.
  assert (Hpr : 0 <= Rabs (val x) * N1 r) by (apply Rmult_le_pos; assumption).
  assert (Hpy : 0 <= Rabs (val x) * Rabs (val y)) by (apply Rmult_le_pos; assumption).
  destruct n as [|n]; cbn [scal1 tl1] in *.
  { change (L1 []) with 0. change (N1 []) with 0. rewrite Rminus_0_l, Rabs_Ropp, Rabs_mult. cbn [INR].
    pose proof (L1_le (y :: r)) as B. pose proof (Rmult_le_compat_l _ _ _ Px B) as B2. rewrite N1_cons in *. lra. }
  inversion H as [|? ? H1 H2]; subst. destruct (IH n x H2) as [I1 I2].
  pose proof (mul_err _ _ H1) as E. rewrite Rabs_mult in E.
  rewrite !L1_cons, !N1_cons, S_INR. set (r' := scal1 n x r) in *.
  split.
  - replace (val (x * y)%float + v * L1 r' - val x * (val y + v * L1 r)) with ((val (x * y)%float - val x * val y) + v * (L1 r' - val x * L1 r)) by ring.
    eapply Rle_trans; [apply Rabs_triang|]. pose proof (pw_le (L1 r' - val x * L1 r) v Hv). lra.
  - assert (Rabs (val (x * y)%float) <= (1 + ul) * (Rabs (val x) * Rabs (val y)) + tau).
    { replace (val (x * y)%float) with ((val (x * y)%float - val x * val y) + val x * val y) by ring.
      eapply Rle_trans; [apply Rabs_triang|]. rewrite Rabs_mult. lra. }
    lra.
Qed.
Lemma scal2_ok b : forall n x, (n <= 32)%nat -> f2 (scal2 n x b) ->
  Rabs (L2 (scal2 n x b) - val x * L2 b) <= Rabs (val x) * tl2 n b + ul * (Rabs (val x) * N2 b) + INR n * (32 * tau) /\
  N2 (scal2 n x b) <= (1 + ul) * (Rabs (val x) * N2 b) + INR n * (32 * tau).
Proof.
  pose proof tau_pos as Ht.
  induction b as [|r b IH]; intros n x Hn H.
  { cbn [scal2 tl2]. unfold L2, N2, Ll, Nl. cbn [fold_right]. rewrite !Rmult_0_r, Rminus_0_r, Rabs_R0, !Rplus_0_l.
    pose proof (Rmult_le_pos _ _ (pos_INR n) Ht). lra. }
  pose proof (Rabs_pos (val x)) as Px. pose proof (N1_pos r) as Pr. pose proof (N2_pos b) as Pb.
  assert (Hpr : 0 <= Rabs (val x) * N1 r) by (apply Rmult_le_pos; assumption).
  assert (Hpb : 0 <= Rabs (val x) * N2 b) by (apply Rmult_le_pos; assumption).
  destruct n as [|n]; [cbn [scal2 tl2] in *|change (scal2 (S n) x (r :: b)) with (scal1 (S n) x r :: scal2 n x b) in *; change (tl2 (S n) (r :: b)) with (tl1 (S n) r + tl2 n b)].
  { change (L2 []) with 0. change (N2 []) with 0. rewrite Rminus_0_l, Rabs_Ropp, Rabs_mult. cbn [INR].
    pose proof (L2_le (r :: b)) as B. pose proof (Rmult_le_compat_l _ _ _ Px B) as B2. rewrite N2_cons in *. lra. }
  inversion H as [|? ? H1 H2]; subst. destruct (IH n x ltac:(lia) H2) as [I1 I2]. destruct (scal1_ok r (S n) x H1) as [J1 J2].
  assert (Hi : INR (S n) * tau <= 32 * tau).
  { apply Rmult_le_compat_r; [exact Ht|]. replace 32 with (INR 32) by (cbn; lra). apply le_INR. lia. }
  rewrite !L2_cons, !N2_cons. rewrite (S_INR n) in *. set (r' := scal1 (S n) x r) in *. set (b' := scal2 n x b) in *.
  split; [|lra].
  replace (L1 r' + u * L2 b' - val x * (L1 r + u * L2 b)) with ((L1 r' - val x * L1 r) + u * (L2 b' - val x * L2 b)) by ring.
  eapply Rle_trans; [apply Rabs_triang|]. pose proof (pw_le (L2 b' - val x * L2 b) u Hu). lra.
Qed.

(* what is left out, as a number *)
Fixpoint ct1 (n : nat) (r : row) (b : poly) {struct r} : R :=
  match r with [] => 0 | x :: r' => Rabs (val x) * tl2 n b + ct1 (Nat.pred n) r' b end.
Fixpoint ct2 (n : nat) (a b : poly) {struct a} : R :=
  match a with [] => 0 | r :: a' => ct1 n r b + ct2 (Nat.pred n) a' b end.
Lemma tl2_0 b : tl2 0 b = N2 b. Proof. destruct b; reflexivity. Qed.
Lemma ct1_0 r b : ct1 0 r b = N1 r * N2 b.
Proof. induction r as [|x r IH]; cbn [ct1 Nat.pred]; [change (N1 []) with 0; ring|]. rewrite IH, tl2_0, N1_cons. ring. Qed.
Lemma ct2_0 a b : ct2 0 a b = N2 a * N2 b.
Proof. induction a as [|x r IH]; cbn [ct2 Nat.pred]; [change (N2 []) with 0; ring|]. rewrite IH, ct1_0, N2_cons. ring. Qed.

Lemma shift_L c : L2 (map (cons 0%float) c) = v * L2 c.
Proof. induction c as [|r c IH]; cbn [map]; [change (L2 []) with 0; ring|]. rewrite !L2_cons, L1_cons, IH, zero_val. ring. Qed.
Lemma shift_N c : N2 (map (cons 0%float) c) = N2 c.
Proof. induction c as [|r c IH]; cbn [map]; [reflexivity|]. rewrite !N2_cons, N1_cons, IH, zero_val, Rabs_R0. ring. Qed.
Lemma shift_f c : f2 (map (cons 0%float) c) -> f2 c.
Proof. induction c as [|r c IH]; cbn [map]; intros H; [constructor|]. inversion H as [|? ? H1 H2]; subst. inversion H1; subst. constructor; [assumption|exact (IH H2)]. Qed.

Notation be1 := (2 * (ul + ul)).
Lemma INR_le n m : (n <= m)%nat -> 0 <= INR n <= INR m.
Proof. intros H. split; [apply pos_INR|apply le_INR; exact H]. Qed.
Lemma INR32 : INR 32 = 32. Proof. cbn. lra. Qed.
Lemma INR31 : INR 31 = 31. Proof. cbn. lra. Qed.

Lemma axpy1_eq b : forall n x acc, axpy1 n x b acc = add1 (scal1 n x b) acc.
Proof.
  induction b as [|y b IH]; intros n x acc; [reflexivity|]. destruct n as [|n]; [reflexivity|]. destruct acc as [|z acc]; [reflexivity|].
  cbn [axpy1 scal1]. rewrite IH. reflexivity.
Qed.
Lemma axpy2_eq b : forall n x acc, axpy2 n x b acc = add2 (scal2 n x b) acc.
Proof.
  induction b as [|y b IH]; intros n x acc; [reflexivity|]. destruct n as [|n]; [reflexivity|]. destruct acc as [|z acc]; [reflexivity|].
  cbn [axpy2 scal2]. rewrite IH, axpy1_eq. reflexivity.
Qed.

Lemma tc1_ok r : forall n b, (n <= 32)%nat -> f2 (tc1 n r b) ->
  Rabs (L2 (tc1 n r b) - L1 r * L2 b) <= ct1 n r b + INR n * be1 * (N1 r * N2 b) + INR n * (2 * (1024 * tau)) /\
  N2 (tc1 n r b) <= (1 + INR n * be1) * (N1 r * N2 b) + INR n * (2 * (1024 * tau)).
Proof.
  pose proof tau_pos as Ht.
  induction r as [|x r IH]; intros n b Hn H.
  { destruct (INR_le _ _ Hn) as [Hi _].
    cbn [tc1 ct1]. change (L2 []) with 0. change (L1 []) with 0. change (N1 []) with 0. change (N2 []) with 0.
    rewrite !Rmult_0_l, !Rmult_0_r, Rminus_0_r, Rabs_R0, !Rplus_0_l. assert (0 <= INR n * (2 * (1024 * tau))) by (apply Rmult_le_pos; lra). lra. }
  pose proof (Rabs_pos (val x)) as Px. pose proof (N1_pos r) as Pr. pose proof (N2_pos b) as Pb.
  assert (HQ : 0 <= N1 r * N2 b) by (apply Rmult_le_pos; assumption).
  assert (HP : 0 <= Rabs (val x) * N2 b) by (apply Rmult_le_pos; assumption).
  destruct n as [|n].
  { rewrite ct1_0. cbn [tc1]. change (L2 []) with 0. change (N2 []) with 0. rewrite Rminus_0_l, Rabs_Ropp, Rabs_mult. cbn [INR].
    rewrite !Rmult_0_l, !Rplus_0_r. split; [|rewrite N1_cons; lra].
    apply Rmult_le_compat; try apply Rabs_pos; [apply L1_le|apply L2_le]. }
  change (tc1 (S n) (x :: r) b) with (axpy2 (S n) x b (map (cons 0%float) (tc1 n r b))) in *. rewrite axpy2_eq in *.
  change (ct1 (S n) (x :: r) b) with (Rabs (val x) * tl2 (S n) b + ct1 n r b).
  destruct (al_add _ _ _ _ _ _ alg2 _ _ H) as (F1 & F2 & J1 & J2). apply shift_f in F2. rewrite shift_L, shift_N in J1. rewrite shift_N in J2.
  destruct (IH n b ltac:(lia) F2) as [I1 I2]. destruct (scal2_ok b (S n) x Hn F1) as [K1 K2].
  assert (Hi : INR (S n) * (32 * tau) <= 1024 * tau).
  { replace (1024 * tau) with (32 * (32 * tau)) by ring. apply Rmult_le_compat_r; [lra|]. rewrite <- INR32. apply le_INR. lia. }
  assert (Hk : 0 <= INR n <= 31) by (rewrite <- INR31; apply INR_le; lia).
  set (c := tc1 n r b) in *. set (mp := scal2 (S n) x b) in *. set (rr := add2 mp (map (cons 0%float) c)) in *.
  destruct (step ul ul (INR n) (1024 * tau) (Rabs (val x) * N2 b) (N1 r * N2 b) (Rabs (val x) * tl2 (S n) b) (ct1 n r b)
     (N2 mp) (N2 c) _ _ _ (N2 rr) ltac:(lra) ltac:(lra) Hk ltac:(lra) ltac:(lra) HP HQ ltac:(eapply Rle_trans; [exact K1|lra]) ltac:(lra) I1 I2 J1 J2) as [S1 S2].
  rewrite L1_cons, N1_cons, S_INR, (Rmult_plus_distr_r (Rabs (val x))). split; [|exact S2].
  eapply Rle_trans; [|exact S1].
  replace (L2 rr - (val x + v * L1 r) * L2 b) with ((L2 rr - (L2 mp + v * L2 c)) + (L2 mp - val x * L2 b) + v * (L2 c - L1 r * L2 b)) by ring.
  eapply Rle_trans; [apply Rabs_triang|]. eapply Rle_trans; [apply Rplus_le_compat_r, Rabs_triang|].
  pose proof (pw_le (L2 c - L1 r * L2 b) v Hv). lra.
Qed.

Notation be2 := (2 * (ul + 32 * be1)).
Lemma tc2_ok a : forall n b, (n <= 32)%nat -> f2 (tc2 n a b) ->
  Rabs (L2 (tc2 n a b) - L2 a * L2 b) <= ct2 n a b + INR n * be2 * (N2 a * N2 b) + INR n * (2 * (65536 * tau)) /\
  N2 (tc2 n a b) <= (1 + INR n * be2) * (N2 a * N2 b) + INR n * (2 * (65536 * tau)).
Proof.
  pose proof tau_pos as Ht.
  induction a as [|r a IH]; intros n b Hn H.
  { destruct (INR_le _ _ Hn) as [Hi _].
    cbn [tc2 ct2]. change (L2 []) with 0. change (N2 []) with 0.
    rewrite !Rmult_0_l, !Rmult_0_r, Rminus_0_r, Rabs_R0, !Rplus_0_l. assert (0 <= INR n * (2 * (65536 * tau))) by (apply Rmult_le_pos; lra). lra. }
  pose proof (N1_pos r) as Px. pose proof (N2_pos a) as Pr. pose proof (N2_pos b) as Pb.
  assert (HQ : 0 <= N2 a * N2 b) by (apply Rmult_le_pos; assumption).
  assert (HP : 0 <= N1 r * N2 b) by (apply Rmult_le_pos; assumption).
  destruct n as [|n].
  { rewrite ct2_0. cbn [tc2]. change (L2 []) with 0. change (N2 []) with 0. rewrite Rminus_0_l, Rabs_Ropp, Rabs_mult. cbn [INR].
    rewrite !Rmult_0_l, !Rplus_0_r. split; [|rewrite N2_cons; lra].
    apply Rmult_le_compat; try apply Rabs_pos; apply L2_le. }
  change (tc2 (S n) (r :: a) b) with (add2 (tc1 (S n) r b) ([] :: tc2 n a b)) in *.
  change (ct2 (S n) (r :: a) b) with (ct1 (S n) r b + ct2 n a b).
  destruct (al_add _ _ _ _ _ _ alg2 _ _ H) as (F1 & F2 & J1 & J2). inversion F2 as [|? ? _ F3]; subst. rewrite L2_cons, N2_cons in J1. rewrite N2_cons in J2.
  change (L1 []) with 0 in J1. change (N1 []) with 0 in J1, J2. rewrite !Rplus_0_l in J1. rewrite Rplus_0_l in J2.
  destruct (IH n b ltac:(lia) F3) as [I1 I2]. destruct (tc1_ok r (S n) b Hn F1) as [K1 K2].
  assert (Hs : 0 <= INR (S n) <= 32) by (rewrite <- INR32; apply INR_le; lia).
  assert (Hi : INR (S n) * (2 * (1024 * tau)) <= 65536 * tau).
  { replace (65536 * tau) with (32 * (2 * (1024 * tau))) by ring. apply Rmult_le_compat_r; lra. }
  assert (Hj : INR (S n) * be1 * (N1 r * N2 b) <= 32 * be1 * (N1 r * N2 b)).
  { apply Rmult_le_compat_r; [exact HP|]. apply Rmult_le_compat_r; lra. }
  assert (Hk : 0 <= INR n <= 31) by (rewrite <- INR31; apply INR_le; lia).
  set (c := tc2 n a b) in *. set (mp := tc1 (S n) r b) in *. set (rr := add2 mp ([] :: c)) in *.
  assert (K2' : N2 mp <= (1 + 32 * be1) * (N1 r * N2 b) + 65536 * tau).
  { eapply Rle_trans; [exact K2|]. rewrite !Rmult_plus_distr_r, !Rmult_1_l. lra. }
  destruct (step ul (32 * be1) (INR n) (65536 * tau) (N1 r * N2 b) (N2 a * N2 b) (ct1 (S n) r b) (ct2 n a b)
     (N2 mp) (N2 c) _ _ _ (N2 rr) ltac:(lra) ltac:(lra) Hk ltac:(lra) ltac:(lra) HP HQ ltac:(eapply Rle_trans; [exact K1|lra]) K2' I1 I2 J1 J2) as [S1 S2].
  rewrite L2_cons, N2_cons, S_INR, (Rmult_plus_distr_r (N1 r)). split; [|exact S2].
  eapply Rle_trans; [|exact S1].
  replace (L2 rr - (L1 r + u * L2 a) * L2 b) with ((L2 rr - (L2 mp + u * L2 c)) + (L2 mp - L1 r * L2 b) + u * (L2 c - L2 a * L2 b)) by ring.
  eapply Rle_trans; [apply Rabs_triang|]. eapply Rle_trans; [apply Rplus_le_compat_r, Rabs_triang|].
  pose proof (pw_le (L2 c - L2 a * L2 b) u Hu). lra.
Qed.

(* the computed bounds dominate *)
Definition sumv (l : row) : R := fold_right (fun x s => val x + s) 0 l.
Definition nng (l : row) : Prop := Forall (fun x => 0 <= val x) l.
Lemma addu_nng a b : 0 <= val a -> 0 <= val b -> 0 <= val (addu a b).
Proof.
  intros Ha Hb. destruct (fin_dec (addu a b)) as [F|F]; [exact (addu_pos _ _ F Ha Hb)|]. rewrite (val_nonfin _ F). lra.
Qed.
Lemma addz_nng a : forall b, nng a -> nng b -> nng (addz a b).
Proof.
  induction a as [|x a IH]; intros b Ha Hb; [exact Hb|]. destruct b as [|y b]; [exact Ha|].
  inversion Ha; subst. inversion Hb; subst. constructor; [apply addu_nng; assumption|apply IH; assumption].
Qed.
Lemma addz_sum a : forall b, nng a -> nng b -> f1 (addz a b) -> f1 a /\ f1 b /\ sumv a + sumv b <= sumv (addz a b).
Proof.
  induction a as [|x a IH]; intros b Ha Hb F.
  { split; [constructor|]. split; [exact F|]. change (addz [] b) with b. change (sumv []) with 0. lra. }
  destruct b as [|y b].
  { split; [exact F|]. split; [constructor|]. change (addz (x :: a) []) with (x :: a). change (sumv []) with 0. lra. }
  change (addz (x :: a) (y :: b)) with (addu x y :: addz a b) in *.
  inversion Ha; subst. inversion Hb; subst. inversion F as [|? ? F1 F2]; subst.
  destruct (IH b ltac:(assumption) ltac:(assumption) F2) as (G1 & G2 & G3). destruct (addu_fin _ _ F1) as [K1 K2].
  split; [constructor; assumption|]. split; [constructor; assumption|].
  pose proof (addu_le _ _ F1 ltac:(assumption) ltac:(assumption)) as A.
  change (val x + sumv a + (val y + sumv b) <= val (addu x y) + sumv (addz a b)). lra.
Qed.
Lemma addz_skip n : forall a b, skipn n (addz a b) = addz (skipn n a) (skipn n b).
Proof.
  induction n as [|n IH]; intros a b; [reflexivity|]. destruct a as [|x a]; [reflexivity|]. destruct b as [|y b].
  - change (addz (x :: a) []) with (x :: a). cbn [skipn]. destruct (skipn n a); reflexivity.
  - change (addz (x :: a) (y :: b)) with (addu x y :: addz a b). cbn [skipn]. apply IH.
Qed.
Lemma nng_skip n l : nng l -> nng (skipn n l).
Proof. revert l. induction n as [|n IH]; intros l H; [exact H|]. destruct l; [exact H|]. inversion H; subst. apply IH. assumption. Qed.
Lemma abs_nng r : nng (map abs r).
Proof. induction r; constructor; [apply abs_pos_val|assumption]. Qed.
Lemma abs_sum r : sumv (map abs r) = N1 r.
Proof. induction r as [|x r IH]; [reflexivity|]. cbn [map]. rewrite N1_cons. change (sumv (abs x :: map abs r)) with (val (abs x) + sumv (map abs r)). rewrite IH, val_abs. reflexivity. Qed.
Lemma tl1_skip n : forall r, tl1 n r = sumv (skipn n (map abs r)).
Proof.
  induction n as [|n IH]; intros r.
  - rewrite <- (abs_sum r) || idtac. destruct r as [|x r]; [reflexivity|]. cbn [tl1 skipn]. symmetry. apply (abs_sum (x :: r)).
  - destruct r as [|x r]; [reflexivity|]. cbn [tl1 map skipn]. apply IH.
Qed.
Lemma diag_nng b : nng (diag b).
Proof. induction b as [|r b IH]; [constructor|]. cbn [diag]. apply addz_nng; [apply abs_nng|]. constructor; [rewrite zero_val; lra|exact IH]. Qed.
Lemma diag_ok b : forall n, f1 (skipn n (diag b)) -> tl2 n b <= sumv (skipn n (diag b)).
Proof.
  induction b as [|r b IH]; intros n F.
  { destruct n; cbn; lra. }
  cbn [diag] in *. rewrite addz_skip in *.
  destruct (addz_sum _ _ (nng_skip n _ (abs_nng r)) (nng_skip n (0%float :: diag b) ltac:(constructor; [rewrite zero_val; lra|apply diag_nng])) F) as (G1 & G2 & G3).
  eapply Rle_trans; [|exact G3]. rewrite <- tl1_skip. destruct n as [|n].
  - cbn [skipn] in *. inversion G2 as [|? ? _ G4]; subst. specialize (IH 0%nat G4). rewrite tl2_0 in IH. cbn [skipn] in IH.
    change (sumv (0%float :: diag b)) with (val 0%float + sumv (diag b)). rewrite zero_val.
    change (tl2 0 (r :: b)) with (N1 r + N2 b). assert (tl1 0 r = N1 r) as -> by (destruct r; reflexivity). lra.
  - cbn [skipn] in *. specialize (IH n G2). change (tl2 (S n) (r :: b)) with (tl1 (S n) r + tl2 n b). lra.
Qed.
Lemma sfx_ok d : nng d -> nng (sfx d) /\ forall n, fin (nth n (sfx d) 0%float) -> f1 (skipn n d) /\ sumv (skipn n d) <= val (nth n (sfx d) 0%float).
Proof.
  induction d as [|x d IH]; intros H.
  { split; [constructor|]. intros n _. cbn [sfx]. destruct n; cbn [skipn nth]; (split; [constructor|]); rewrite zero_val; cbn; lra. }
  inversion H as [|? ? H1 H2]; subst. destruct (IH H2) as [I1 I2]. cbn [sfx]. destruct (sfx d) as [|y l] eqn:E.
  - assert (d = []) by (destruct d as [|z d']; [reflexivity|cbn [sfx] in E; destruct (sfx d'); discriminate E]). subst d.
    split; [constructor; [exact H1|constructor]|]. intros [|n]; intros F.
    + cbn [skipn nth] in *. split; [constructor; [exact F|constructor]|]. cbn. lra.
    + cbn [skipn nth] in *. rewrite skipn_nil. destruct n; rewrite zero_val; (split; [constructor|cbn; lra]).
  - inversion I1 as [|? ? J1 J2]; subst. split; [constructor; [apply addu_nng; assumption|exact I1]|].
    intros [|n] F.
    + cbn [skipn nth] in *. destruct (addu_fin _ _ F) as [K1 K2]. destruct (I2 0%nat K2) as [M1 M2]. cbn [skipn nth] in M1, M2.
      split; [constructor; assumption|]. pose proof (addu_le _ _ F H1 J1). change (val x + sumv d <= val (addu x y)). lra.
    + change (nth (S n) (addu x y :: y :: l) 0%float) with (nth n (y :: l) 0%float) in *. cbn [skipn]. apply I2. exact F.
Qed.
Lemma sfx_tl b n : fin (nth n (sfx (diag b)) 0%float) -> tl2 n b <= val (nth n (sfx (diag b)) 0%float).
Proof.
  intros F. destruct (sfx_ok _ (diag_nng b)) as [_ H]. destruct (H n F) as [H1 H2]. eapply Rle_trans; [apply diag_ok; exact H1|exact H2].
Qed.
Lemma nth_nng b n : 0 <= val (nth n (sfx (diag b)) 0%float).
Proof.
  destruct (sfx_ok _ (diag_nng b)) as [H _]. revert n. induction H as [|x l H1 H2 IH]; intros [|n]; cbn [nth]; try (rewrite zero_val; lra); [exact H1|apply IH].
Qed.
Lemma tl1_pos n : forall r, 0 <= tl1 n r.
Proof. intros r. revert n. induction r as [|x r IH]; intros [|n]; cbn [tl1]; try lra; [apply N1_pos|apply IH]. Qed.
Lemma tl2_pos b : forall n, 0 <= tl2 n b.
Proof.
  induction b as [|r b IH]; intros [|n]; try (cbn; lra); [apply N2_pos|]. change (tl2 (S n) (r :: b)) with (tl1 (S n) r + tl2 n b).
  pose proof (tl1_pos (S n) r). pose proof (IH n). lra.
Qed.
Lemma cut1_ok r b : forall acc n, fin (cut1 acc n r (sfx (diag b))) -> 0 <= val acc ->
  fin acc /\ val acc + ct1 n r b <= val (cut1 acc n r (sfx (diag b))).
Proof.
  induction r as [|x r IH]; intros acc n F Ha; cbn [cut1 ct1] in *; [split; [exact F|lra]|].
  assert (Hm : 0 <= val (mulu (abs x) (nth n (sfx (diag b)) 0%float))).
  { destruct (fin_dec (mulu (abs x) (nth n (sfx (diag b)) 0%float))) as [G|G]; [|rewrite (val_nonfin _ G); lra].
    pose proof (mulu_le _ _ G (abs_pos_val x) (nth_nng b n)) as A.
    pose proof (Rmult_le_pos _ _ (abs_pos_val x) (nth_nng b n)). lra. }
  destruct (IH _ _ F (addu_nng _ _ Ha Hm)) as [F1 F2]. destruct (addu_fin _ _ F1) as [F3 F4]. split; [exact F3|].
  destruct (mulu_fin _ _ F4) as [_ F5]. pose proof (addu_le _ _ F1 Ha Hm) as A1.
  pose proof (mulu_le _ _ F4 (abs_pos_val x) (nth_nng b n)) as A2. rewrite val_abs in A2.
  pose proof (Rmult_le_compat_l _ _ _ (Rabs_pos (val x)) (sfx_tl b n F5)). lra.
Qed.
Lemma ct1_pos r b : forall n, 0 <= ct1 n r b.
Proof. induction r as [|x r IH]; intros n; cbn [ct1]; [lra|]. pose proof (IH (Nat.pred n)). pose proof (Rmult_le_pos _ _ (Rabs_pos (val x)) (tl2_pos b n)). lra. Qed.
Lemma ct2_pos a b : forall n, 0 <= ct2 n a b.
Proof. induction a as [|r a IH]; intros n; cbn [ct2]; [lra|]. pose proof (ct1_pos r b n). pose proof (IH (Nat.pred n)). lra. Qed.
Lemma ct1_add p : forall n q b, nng p -> nng q -> f1 (addz p q) -> ct1 n p b + ct1 n q b <= ct1 n (addz p q) b.
Proof.
  induction p as [|x p IH]; intros n q b Hp Hq F.
  { change (addz [] q) with q. cbn [ct1]. lra. }
  destruct q as [|y q]. { change (addz (x :: p) []) with (x :: p). cbn [ct1]. lra. }
  change (addz (x :: p) (y :: q)) with (addu x y :: addz p q) in *. cbn [ct1].
  inversion Hp; subst. inversion Hq; subst. inversion F as [|? ? F1 F2]; subst.
  specialize (IH (Nat.pred n) q b ltac:(assumption) ltac:(assumption) F2).
  pose proof (addu_le _ _ F1 ltac:(assumption) ltac:(assumption)) as A. rewrite !Rabs_pos_eq by lra.
  pose proof (Rmult_le_compat_r _ _ _ (tl2_pos b n) A). lra.
Qed.
Lemma ct1_abs r b : forall n, ct1 n (map abs r) b = ct1 n r b.
Proof. induction r as [|x r IH]; intros n; cbn [map ct1]; [reflexivity|]. rewrite IH, val_abs, Rabs_Rabsolu. reflexivity. Qed.
Lemma diag_fin a : f1 (diag a) -> f2 a.
Proof.
  induction a as [|r a IH]; intros F; [constructor|]. cbn [diag] in F.
  destruct (addz_sum _ _ (abs_nng r) ltac:(constructor; [rewrite zero_val; lra|apply diag_nng]) F) as (G1 & G2 & _).
  inversion G2; subst. constructor; [|apply IH; assumption].
  clear -G1. induction r as [|x r IH]; [constructor|]. cbn [map] in G1. inversion G1; subst. constructor; [apply fin_abs; assumption|apply IH; assumption].
Qed.
Lemma ct_diag a b : forall n, f1 (diag a) -> ct2 n a b <= ct1 n (diag a) b.
Proof.
  induction a as [|r a IH]; intros n F; cbn [ct2 diag] in *; [cbn; lra|].
  assert (Z : nng (0%float :: diag a)) by (constructor; [rewrite zero_val; lra|apply diag_nng]).
  destruct (addz_sum _ _ (abs_nng r) Z F) as (G1 & G2 & _). inversion G2; subst.
  eapply Rle_trans; [|apply ct1_add; [apply abs_nng|exact Z|exact F]]. rewrite ct1_abs. cbn [ct1]. rewrite zero_val, Rabs_R0, Rmult_0_l.
  specialize (IH (Nat.pred n) ltac:(assumption)). lra.
Qed.
Lemma nrm_ok t : wf t -> fin (nrm t) -> f1 (td t) /\ f2 (tc t) /\ N2 (tc t) <= val (nrm t).
Proof.
  intros [W1 W2] F. unfold nrm in *. rewrite W2, W1 in *. destruct (sfx_ok _ (diag_nng (tc t))) as [_ H]. destruct (H 0%nat F) as [H1 H2].
  cbn [skipn] in H1. split; [exact H1|]. split; [apply diag_fin; exact H1|]. rewrite <- tl2_0. apply sfx_tl. exact F.
Qed.
Lemma nrm_nng t : wf t -> 0 <= val (nrm t).
Proof. intros [W1 W2]. unfold nrm. rewrite W2, W1. apply nth_nng. Qed.
Lemma cut_ok a b acc n : wf a -> wf b -> f1 (td a) -> fin (cut1 acc n (td a) (ts b)) -> 0 <= val acc ->
  fin acc /\ val acc + ct2 n (tc a) (tc b) <= val (cut1 acc n (td a) (ts b)).
Proof.
  intros [W1 W2] [W3 W4] Fd F Ha. rewrite W4, W3, W1 in *. destruct (cut1_ok _ _ _ _ F Ha) as [F1 F2]. split; [exact F1|].
  pose proof (ct_diag (tc a) (tc b) n Fd). lra.
Qed.

(* ---- the operations are correct ---- *)
Lemma ok_bad x : ok tbad x.
Proof. split; [apply wf_TM|]. intros F. discriminate F. Qed.
Lemma ok_cst f : ok (cst f) (val f).
Proof. split; [apply wf_TM|]. intros _ _. cbn. match goal with |- Rabs ?z <= _ => replace z with 0 by ring end. rewrite Rabs_R0. lra. Qed.

Lemma pos52 : fin 0x1p-52%float /\ val 0x1p-52%float = / 4503599627370496.
Proof. split; [eapply fin_SF; vm_compute; reflexivity|]. erewrite val_SF by (vm_compute; reflexivity). cbv iota.
  change 2 with (IZR radix2). rewrite <- bpow_powerRZ. change (bpow radix2 (-104)) with (/ IZR 20282409603651670423947251286016). lra. Qed.
Lemma pos50 : fin 0x1p-50%float /\ val 0x1p-50%float = / 1125899906842624.
Proof. split; [eapply fin_SF; vm_compute; reflexivity|]. erewrite val_SF by (vm_compute; reflexivity). cbv iota.
  change 2 with (IZR radix2). rewrite <- bpow_powerRZ. change (bpow radix2 (-102)) with (/ IZR 5070602400912917605986812821504). lra. Qed.
Lemma pos39 : fin 0x1p-39%float /\ val 0x1p-39%float = / 549755813888.
Proof. split; [eapply fin_SF; vm_compute; reflexivity|]. erewrite val_SF by (vm_compute; reflexivity). cbv iota.
  change 2 with (IZR radix2). rewrite <- bpow_powerRZ. change (bpow radix2 (-91)) with (/ IZR 2475880078570760549798248448). lra. Qed.
Lemma half_val : fin 0.5%float /\ val 0.5%float = / 2.
Proof. split; [eapply fin_SF; vm_compute; reflexivity|]. erewrite val_SF by (vm_compute; reflexivity). cbv iota.
  change 2 with (IZR radix2) at 1. rewrite <- bpow_powerRZ. change (bpow radix2 (-53)) with (/ IZR 9007199254740992). lra. Qed.

Lemma ok_rcst f x : Rabs (x - val f) <= / 1125899906842624 * Rabs (val f) -> ok (rcst f) x.
Proof.
  intros H. split; [apply wf_TM|]. intros F _. unfold rcst in *. cbn [te tc TM] in *. pose proof pos50 as [P1 P2].
  pose proof (mulu_le _ _ F (abs_pos_val f) ltac:(rewrite P2; lra)) as A. rewrite P2, val_abs in A.
  unfold L2, L1, Ll. cbn [fold_right]. rewrite !Rmult_0_r, !Rplus_0_r. lra.
Qed.

Lemma te_pos t x : ok t x -> fin (te t) -> f2 (tc t) -> 0 <= val (te t).
Proof. intros [_ H] F G. eapply Rle_trans; [apply Rabs_pos|apply (H F G)]. Qed.

Lemma ok_add a b x y : ok a x -> ok b y -> ok (tadd a b) (x + y).
Proof.
  intros Ha Hb. split; [apply wf_TM|]. intros F G. unfold tadd in *. cbn [te tc TM] in *. set (c := add2 (tc a) (tc b)) in *.
  destruct (addu_fin _ _ F) as [F1 F2]. destruct (addu_fin _ _ F1) as [F3 F4]. destruct (mulu_fin _ _ F2) as [F5 _].
  destruct (addu_fin _ _ F5) as [F6 F7].
  destruct (al_add _ _ _ _ _ _ alg2 _ _ G) as (G1 & G2 & E & _). fold c in E.
  pose proof (proj2 Ha F3 G1) as Xa. pose proof (proj2 Hb F4 G2) as Xb.
  pose proof (te_pos _ _ Ha F3 G1) as Pa. pose proof (te_pos _ _ Hb F4 G2) as Pb.
  destruct (nrm_ok _ (proj1 Ha) F6) as (_ & _ & Na). destruct (nrm_ok _ (proj1 Hb) F7) as (_ & _ & Nb).
  pose proof (N2_pos (tc a)) as Ya. pose proof (N2_pos (tc b)) as Yb.
  pose proof pos52 as [Q1 Q2]. pose proof (addu_le _ _ F5 ltac:(lra) ltac:(lra)) as Hn.
  pose proof (mulu_le _ _ F2 ltac:(lra) ltac:(rewrite Q2; lra)) as Hm. rewrite Q2 in Hm.
  pose proof (addu_le _ _ F1 Pa Pb) as A1. pose proof (addu_le _ _ F ltac:(lra) ltac:(lra)) as A2.
  replace (x + y - L2 c) with ((x - L2 (tc a)) + (y - L2 (tc b)) - (L2 c - (L2 (tc a) + L2 (tc b)))) by ring.
  eapply Rle_trans; [apply Rabs_triang|]. rewrite Rabs_Ropp. eapply Rle_trans; [apply Rplus_le_compat_r, Rabs_triang|]. lra.
Qed.
Lemma abs_opp x : abs (- x)%float = abs x.
Proof. apply Prim2SF_inj. rewrite !abs_spec, opp_spec. destruct (Prim2SF x); reflexivity. Qed.
Lemma diag_opp c : diag (map (map PrimFloat.opp) c) = diag c.
Proof.
  induction c as [|r c IH]; [reflexivity|]. cbn [map diag]. rewrite IH, map_map. f_equal. apply map_ext. exact abs_opp.
Qed.
Lemma ok_opp a x : ok a x -> ok (topp a) (- x).
Proof.
  intros Ha. split; [destruct Ha as [[W1 W2] _]; split; cbn [topp tc td ts]; [rewrite diag_opp; exact W1|exact W2]|].
  intros F G. unfold topp in *. cbn [te tc] in *.
  assert (X1 : forall r, L1 (map PrimFloat.opp r) = - L1 r).
  { induction r as [|y r IH]; cbn [map L1 Ll fold_right]; [unfold L1, Ll; cbn; ring|].
    change (fold_right _ 0 (map PrimFloat.opp r)) with (L1 (map PrimFloat.opp r)). rewrite IH, val_opp.
    change (fold_right _ 0 r) with (L1 r). ring. }
  assert (X2 : forall c, L2 (map (map PrimFloat.opp) c) = - L2 c).
  { induction c as [|r c IH]; cbn [map L2 Ll fold_right]; [unfold L2, Ll; cbn; ring|].
    change (fold_right _ 0 (map (map PrimFloat.opp) c)) with (L2 (map (map PrimFloat.opp) c)). rewrite IH, X1.
    change (fold_right _ 0 c) with (L2 c). ring. }
  assert (Y : f2 (tc a)).
  { clear -G. induction (tc a) as [|r c IH]; [constructor|]. cbn [map] in G. inversion G as [|? ? G1 G2]; subst. constructor; [|exact (IH G2)].
    clear -G1. induction r as [|y r IH]; [constructor|]. cbn [map] in G1. inversion G1 as [|? ? G2 G3]; subst.
    constructor; [apply fin_opp; exact G2|exact (IH G3)]. }
  rewrite X2. replace (- x - - L2 (tc a)) with (- (x - L2 (tc a))) by ring. rewrite Rabs_Ropp. apply (proj2 Ha); assumption.
Qed.
Lemma ok_sub a b x y : ok a x -> ok b y -> ok (tsub a b) (x - y).
Proof. intros. apply ok_add; [assumption|apply ok_opp; assumption]. Qed.

Lemma tau_tup : 32 * (2 * (65536 * tau)) <= val tup.
Proof.
  rewrite tup_val. replace (32 * (2 * (65536 * tau))) with (bpow radix2 (22 + -1075)).
  - apply bpow_le. lia.
  - rewrite bpow_plus. change (bpow radix2 22) with (IZR 4194304). ring.
Qed.

Lemma ok_mul k a b x y : ok a x -> ok b y -> ok (tmul k a b) (x * y).
Proof.
  intros Ha Hb. unfold tmul. cbv zeta. destruct (Nat.leb k 32) eqn:El; [|apply ok_bad]. apply Nat.leb_le in El.
  split; [apply wf_TM|]. intros F G. cbn [te tc TM] in *.
  set (na := nrm a) in *. set (nb := nrm b) in *.
  destruct (addu_fin _ _ F) as [F1 F2]. destruct (addu_fin _ _ F1) as [F3 F4]. destruct (addu_fin _ _ F2) as [F5 F6].
  destruct (mulu_fin _ _ F3) as [Fa F7]. destruct (addu_fin _ _ F7) as [Fnb Fb]. destruct (mulu_fin _ _ F4) as [_ Fna].
  destruct (mulu_fin _ _ F5) as [F8 _].
  destruct (nrm_ok _ (proj1 Ha) Fna) as (Da & Ga & Na). destruct (nrm_ok _ (proj1 Hb) Fnb) as (_ & Gb & Nb).
  fold na in Na. fold nb in Nb. pose proof (N2_pos (tc a)) as Pa. pose proof (N2_pos (tc b)) as Pb.
  pose proof (proj2 Ha Fa Ga) as Xa. pose proof (proj2 Hb Fb Gb) as Xb.
  pose proof (te_pos _ _ Ha Fa Ga) as Ea. pose proof (te_pos _ _ Hb Fb Gb) as Eb.
  assert (Ptup : 0 <= val tup) by (rewrite tup_val; apply bpow_ge_0).
  destruct (cut_ok a b _ _ (proj1 Ha) (proj1 Hb) Da F6 Ptup) as [_ T4].
  destruct (tc2_ok (tc a) k (tc b) El G) as [M _].
  pose proof tau_tup as Ht. pose proof pos39 as [Q1 Q2]. pose proof tau_pos as Htau.
  assert (Hk : 0 <= INR k <= 32) by (rewrite <- INR32; apply INR_le; lia).
  pose proof (addu_le _ _ F7 ltac:(lra) Eb) as A1.
  pose proof (mulu_le _ _ F3 Ea ltac:(lra)) as A2.
  pose proof (mulu_le _ _ F4 Eb ltac:(lra)) as A3.
  pose proof (mulu_le _ _ F8 ltac:(lra) ltac:(lra)) as A4.
  assert (P4 : 0 <= val na * val nb) by (apply Rmult_le_pos; lra).
  pose proof (mulu_le _ _ F5 ltac:(lra) ltac:(rewrite Q2; lra)) as A5. rewrite Q2 in A5.
  assert (P2 : 0 <= val (te a) * val (addu nb (te b))) by (apply Rmult_le_pos; lra).
  assert (P3 : 0 <= val (te b) * val na) by (apply Rmult_le_pos; lra).
  pose proof (ct2_pos (tc a) (tc b) k) as P5.
  pose proof (addu_le _ _ F1 ltac:(lra) ltac:(lra)) as A6.
  pose proof (addu_le _ _ F2 ltac:(lra) ltac:(lra)) as A7.
  pose proof (addu_le _ _ F ltac:(lra) ltac:(lra)) as A8.
  set (la := L2 (tc a)) in *. set (lb := L2 (tc b)) in *. set (lf := L2 (tc2 k (tc a) (tc b))) in *.
  pose proof (L2_le (tc a)) as Ba. pose proof (L2_le (tc b)) as Bb. fold la in Ba. fold lb in Bb.
  assert (S1 : Rabs ((x - la) * y) <= val (te a) * val (addu nb (te b))).
  { rewrite Rabs_mult. apply Rmult_le_compat; try apply Rabs_pos; [exact Xa|].
    replace y with ((y - lb) + lb) by ring. eapply Rle_trans; [apply Rabs_triang|]. lra. }
  assert (S2 : Rabs (la * (y - lb)) <= val (te b) * val na).
  { rewrite Rabs_mult, Rmult_comm. apply Rmult_le_compat; try apply Rabs_pos; [exact Xb|]. lra. }
  assert (S3 : N2 (tc a) * N2 (tc b) <= val na * val nb) by (apply Rmult_le_compat; lra).
  assert (S4 : INR k * be2 * (N2 (tc a) * N2 (tc b)) <= / 549755813888 * (val na * val nb)).
  { apply Rmult_le_compat; try (apply Rmult_le_pos; lra); lra. }
  assert (S5 : INR k * (2 * (65536 * tau)) <= 32 * (2 * (65536 * tau))) by (apply Rmult_le_compat_r; lra).
  replace (x * y - lf) with ((x - la) * y + la * (y - lb) - (lf - la * lb)) by ring.
  eapply Rle_trans; [apply Rabs_triang|]. rewrite Rabs_Ropp. eapply Rle_trans; [apply Rplus_le_compat_r, Rabs_triang|].
  set (W := val na * val nb) in *. lra.
Qed.

(* sums of multiples *)
Definition lterm (p : float * tm) (q : R * R) : Prop :=
  ok (snd p) (snd q) /\ Rabs (fst q - val (fst p)) <= / 1125899906842624 * Rabs (val (fst p)).
Definition lsum (g : float * tm -> R) (l : list (float * tm)) : R := fold_right (fun p s => g p + s) 0 l.
Definition lval (l : list (R * R)) : R := fold_right (fun q s => fst q * snd q + s) 0 l.
Notation gN := (fun p => Rabs (val (fst p)) * N2 (tc (snd p))).
Notation gC k := (fun p => Rabs (val (fst p)) * tl2 k (tc (snd p))).
Notation gE := (fun p => Rabs (val (fst p)) * val (te (snd p))).
Lemma lin_ok k l : (k <= 32)%nat -> (length l <= 32)%nat -> f2 (lin k l) ->
  Rabs (L2 (lin k l) - lsum (fun p => val (fst p) * L2 (tc (snd p))) l)
     <= lsum (gC k) l + INR (length l) * be1 * lsum gN l + INR (length l) * (2 * (1024 * tau)) /\
  N2 (lin k l) <= (1 + INR (length l) * be1) * lsum gN l + INR (length l) * (2 * (1024 * tau)) /\ 0 <= lsum gN l.
Proof.
  intros Hk. pose proof tau_pos as Ht. induction l as [|[f t] l IH]; intros Hl H.
  { cbn. change (L2 []) with 0. change (N2 []) with 0. rewrite Rminus_0_r, Rabs_R0. lra. }
  cbn [length] in Hl. cbn [lin] in *. rewrite axpy2_eq in *. unfold lsum in *. cbn [fold_right fst snd].
  destruct (al_add _ _ _ _ _ _ alg2 _ _ H) as (F1 & F2 & J1 & J2).
  destruct (IH ltac:(lia) F2) as (I1 & I2 & I3). destruct (scal2_ok (tc t) k f Hk F1) as [K1 K2].
  assert (Hi : INR k * (32 * tau) <= 1024 * tau).
  { replace (1024 * tau) with (32 * (32 * tau)) by ring. apply Rmult_le_compat_r; [lra|]. rewrite <- INR32. apply le_INR. lia. }
  assert (Hn : 0 <= INR (length l) <= 31) by (rewrite <- INR31; apply INR_le; lia).
  pose proof (N2_pos (tc t)) as Pb. pose proof (Rmult_le_pos _ _ (Rabs_pos (val f)) Pb) as HP.
  set (mp := scal2 k f (tc t)) in *. set (c := lin k l) in *. set (rr := add2 mp c) in *.
  set (Q := fold_right _ 0 l) in I2. set (SC := fold_right (fun p s => gC k p + s) 0 l) in *. set (SL := fold_right _ 0 l) in I1.
  fold Q in I1, I3. fold SL. fold Q.
  destruct (step ul ul (INR (length l)) (1024 * tau) (Rabs (val f) * N2 (tc t)) Q (Rabs (val f) * tl2 k (tc t)) SC
     (N2 mp) (N2 c) _ _ _ (N2 rr) ltac:(lra) ltac:(lra) Hn ltac:(lra) ltac:(lra) HP I3 ltac:(eapply Rle_trans; [exact K1|lra]) ltac:(lra) I1 I2 J1 J2) as [S1 S2].
  change (length ((f, t) :: l)) with (S (length l)). rewrite S_INR. split; [|split; [exact S2|lra]].
  eapply Rle_trans; [|exact S1].
  replace (L2 rr - (val f * L2 (tc t) + SL)) with ((L2 rr - (L2 mp + L2 c)) + (L2 mp - val f * L2 (tc t)) + (L2 c - SL)) by ring.
  eapply Rle_trans; [apply Rabs_triang|]. eapply Rle_trans; [apply Rplus_le_compat_r, Rabs_triang|]. lra.
Qed.
Lemma linm_ok l q : Forall2 lterm l q -> forall s, fin (linm s l) -> 0 <= val s -> fin s ->
  Forall (fun p => fin (te (snd p)) /\ f2 (tc (snd p))) l -> val s + lsum gN l + lsum gE l <= val (linm s l).
Proof.
  induction 1 as [|[f t] [c x] l q [H1 _] H2 IH]; intros s F Hs Fs G; cbn [linm lsum fold_right fst snd] in *; [lra|].
  inversion G as [|? ? [G1 G2] G3]; subst. cbn [fst snd] in *.
  assert (FF : forall l s, fin (linm s l) -> fin s).
  { clear. induction l as [|[f t] l IH]; intros s F; [exact F|]. cbn [linm] in F. apply IH in F. apply addu_fin in F. apply F. }
  pose proof (FF _ _ F) as F1. destruct (addu_fin _ _ F1) as [_ F2]. destruct (mulu_fin _ _ F2) as [_ F3]. destruct (addu_fin _ _ F3) as [F4 F5].
  destruct (nrm_ok _ (proj1 H1) F4) as (_ & _ & Nt). pose proof (N2_pos (tc t)) as Pt. pose proof (te_pos _ _ H1 G1 G2) as Pe.
  pose proof (addu_le _ _ F3 ltac:(lra) Pe) as A1. pose proof (Rabs_pos (val f)) as Pf.
  pose proof (mulu_le _ _ F2 (abs_pos_val f) ltac:(lra)) as A2. rewrite val_abs in A2.
  assert (B : Rabs (val f) * (N2 (tc t) + val (te t)) <= Rabs (val f) * val (addu (nrm t) (te t))) by (apply Rmult_le_compat_l; lra).
  rewrite Rmult_plus_distr_l in B. pose proof (Rmult_le_pos _ _ Pf Pt). pose proof (Rmult_le_pos _ _ Pf Pe).
  pose proof (addu_le _ _ F1 Hs ltac:(lra)) as A3.
  specialize (IH _ F ltac:(lra) F1 G3). unfold lsum in IH. lra.
Qed.
Lemma line_fin k l : forall s, fin (line s k l) -> fin s /\ Forall (fun p => fin (te (snd p)) /\ fin (nth k (ts (snd p)) 0%float)) l.
Proof.
  induction l as [|[f t] l IH]; intros s F; cbn [line] in F; [split; [exact F|constructor]|].
  destruct (IH _ F) as [F1 F2]. destruct (addu_fin _ _ F1) as [F3 F4]. split; [exact F3|]. destruct (mulu_fin _ _ F4) as [_ F5].
  destruct (addu_fin _ _ F5). constructor; [split; assumption|exact F2].
Qed.
Lemma linm_fin l : forall s, fin (linm s l) -> fin s /\ Forall (fun p => fin (nrm (snd p))) l.
Proof.
  induction l as [|[f t] l IH]; intros s F; cbn [linm] in F; [split; [exact F|constructor]|].
  destruct (IH _ F) as [F1 F2]. destruct (addu_fin _ _ F1) as [F3 F4]. split; [exact F3|]. destruct (mulu_fin _ _ F4) as [_ F5].
  destruct (addu_fin _ _ F5). constructor; assumption.
Qed.
Lemma line_ok k l q : Forall2 lterm l q -> forall s, fin (line s k l) -> 0 <= val s ->
  Forall (fun p => fin (te (snd p)) /\ f2 (tc (snd p))) l -> val s + lsum (gC k) l + lsum gE l <= val (line s k l).
Proof.
  induction 1 as [|[f t] [c x] l q [H1 _] H2 IH]; intros s F Hs G; cbn [line lsum fold_right fst snd] in *; [lra|].
  inversion G as [|? ? [G1 G2] G3]; subst. cbn [fst snd] in *.
  destruct (line_fin _ _ _ F) as [F1 _]. destruct (addu_fin _ _ F1) as [_ F2]. destruct (mulu_fin _ _ F2) as [_ F3]. destruct (addu_fin _ _ F3) as [F4 F5].
  destruct (proj1 H1) as [W1 W2]. rewrite W2, W1 in *. pose proof (sfx_tl _ _ F5) as Nt. pose proof (tl2_pos (tc t) k) as Pt. pose proof (te_pos _ _ H1 G1 G2) as Pe.
  pose proof (addu_le _ _ F3 Pe ltac:(lra)) as A1. pose proof (Rabs_pos (val f)) as Pf.
  pose proof (mulu_le _ _ F2 (abs_pos_val f) ltac:(lra)) as A2. rewrite val_abs in A2.
  set (w := addu (te t) _) in *.
  assert (B : Rabs (val f) * (tl2 k (tc t) + val (te t)) <= Rabs (val f) * val w) by (apply Rmult_le_compat_l; lra).
  rewrite Rmult_plus_distr_l in B. pose proof (Rmult_le_pos _ _ Pf Pt). pose proof (Rmult_le_pos _ _ Pf Pe).
  pose proof (addu_le _ _ F1 Hs ltac:(lra)) as A3.
  specialize (IH _ F ltac:(lra) G3). unfold lsum in IH. lra.
Qed.
Lemma lval_ok l q : Forall2 lterm l q -> Forall (fun p => fin (te (snd p)) /\ f2 (tc (snd p))) l ->
  Rabs (lval q - lsum (fun p => val (fst p) * L2 (tc (snd p))) l)
    <= lsum gE l + / 1125899906842624 * (lsum gN l + lsum gE l) /\ 0 <= lsum gN l /\ 0 <= lsum gE l.
Proof.
  induction 1 as [|[f t] [c x] l q [H1 H0] H2 IH]; intros G; unfold lval, lsum in *; cbn [fold_right fst snd] in *.
  { rewrite Rminus_0_r, Rabs_R0. lra. }
  inversion G as [|? ? [G1 G2] G3]; subst. cbn [fst snd] in *. destruct (IH G3) as (I1 & I2 & I3).
  pose proof (te_pos _ _ H1 G1 G2) as Pe. pose proof (proj2 H1 G1 G2) as X. pose proof (L2_le (tc t)) as Lt. pose proof (N2_pos (tc t)) as Pn.
  set (A := fold_right _ 0 q) in *. set (B := fold_right (fun p s => val (fst p) * L2 (tc (snd p)) + s) 0 l) in *.
  set (SE := fold_right _ 0 l) in I3. set (SN := fold_right _ 0 l) in I2. fold SE in I1 |- *. fold SN in I1 |- *.
  pose proof (Rabs_pos (val f)) as Pf. pose proof (Rmult_le_pos _ _ Pf Pn). pose proof (Rmult_le_pos _ _ Pf Pe).
  split; [|lra].
  replace (c * x + A - (val f * L2 (tc t) + B)) with ((c - val f) * x + val f * (x - L2 (tc t)) + (A - B)) by ring.
  eapply Rle_trans; [apply Rabs_triang|]. eapply Rle_trans; [apply Rplus_le_compat_r, Rabs_triang|]. rewrite !Rabs_mult.
  assert (Rabs x <= N2 (tc t) + val (te t)).
  { replace x with ((x - L2 (tc t)) + L2 (tc t)) by ring. eapply Rle_trans; [apply Rabs_triang|]. lra. }
  assert (Rabs (c - val f) * Rabs x <= / 1125899906842624 * Rabs (val f) * (N2 (tc t) + val (te t))) by (apply Rmult_le_compat; try apply Rabs_pos; assumption).
  assert (Rabs (val f) * Rabs (x - L2 (tc t)) <= Rabs (val f) * val (te t)) by (apply Rmult_le_compat_l; assumption).
  lra.
Qed.
Lemma pos44 : fin 0x1p-44%float /\ val 0x1p-44%float = / 17592186044416.
Proof. split; [eapply fin_SF; vm_compute; reflexivity|]. erewrite val_SF by (vm_compute; reflexivity). cbv iota.
  change 2 with (IZR radix2). rewrite <- bpow_powerRZ. change (bpow radix2 (-96)) with (/ IZR 79228162514264337593543950336). lra. Qed.
Lemma ok_lin k l q : Forall2 lterm l q -> ok (tlin k l) (lval q).
Proof.
  intros H. unfold tlin. destruct (_ && _) eqn:El; [|apply ok_bad]. apply andb_true_iff in El as [E1 E2]. apply Nat.leb_le in E1, E2.
  split; [apply wf_TM|]. intros F G. cbn [te tc TM] in *. destruct (line_fin _ _ _ F) as [F1 F2]. destruct (addu_fin _ _ F1) as [_ F3].
  destruct (mulu_fin _ _ F3) as [F4 _]. destruct (linm_fin _ _ F4) as [_ F5].
  assert (G1 : Forall (fun p => fin (te (snd p)) /\ f2 (tc (snd p))) l).
  { clear -H F2 F5. induction H as [|p q l m [H1 _] H2 IH]; [constructor|]. inversion F2 as [|? ? [X1 X2] X3]; subst. inversion F5 as [|? ? Y1 Y2]; subst.
    constructor; [|apply IH; assumption]. split; [exact X1|]. apply (nrm_ok _ (proj1 H1) Y1). }
  destruct (lval_ok _ _ H G1) as (I1 & I2 & I3). destruct (lin_ok k l E1 E2 G) as (I4 & _ & _).
  pose proof (linm_ok _ _ H _ F4 ltac:(rewrite zero_val; lra) zero_fin G1) as I5. rewrite zero_val in I5.
  pose proof pos44 as [_ P4]. pose proof (mulu_le _ _ F3 ltac:(lra) ltac:(rewrite P4; lra)) as A1. rewrite P4 in A1.
  assert (Pt : 0 <= val tup) by (rewrite tup_val; apply bpow_ge_0).
  pose proof (addu_le _ _ F1 Pt ltac:(lra)) as A2. pose proof (line_ok k _ _ H _ F ltac:(lra) G1) as A3.
  pose proof tau_tup as Ht. pose proof tau_pos as Htau.
  assert (Hn : 0 <= INR (length l) <= 32) by (rewrite <- INR32; apply INR_le; lia).
  assert (S4 : INR (length l) * be1 * lsum gN l <= 32 * be1 * lsum gN l) by (apply Rmult_le_compat_r; [lra|]; apply Rmult_le_compat_r; lra).
  assert (S5 : INR (length l) * (2 * (1024 * tau)) <= 32 * (2 * (1024 * tau))) by (apply Rmult_le_compat_r; lra).
  set (SL := lsum (fun p => val (fst p) * L2 (tc (snd p))) l) in *.
  replace (lval q - L2 (lin k l)) with ((lval q - SL) - (L2 (lin k l) - SL)) by ring.
  eapply Rle_trans; [apply Rabs_triang|]. rewrite Rabs_Ropp. lra.
Qed.

Lemma two_val : fin 2%float /\ val 2%float = 2.
Proof. split; [eapply fin_SF; vm_compute; reflexivity|]. erewrite val_SF by (vm_compute; reflexivity). cbv iota.
  replace (powerRZ 2 (-51)) with (/ 2251799813685248) by (change 2 with (IZR radix2); rewrite <- bpow_powerRZ; reflexivity). lra. Qed.
Lemma one_val : fin 1%float /\ val 1%float = 1.
Proof. split; [eapply fin_SF; vm_compute; reflexivity|]. erewrite val_SF by (vm_compute; reflexivity). cbv iota.
  replace (powerRZ 2 (-52)) with (/ 4503599627370496) by (change 2 with (IZR radix2); rewrite <- bpow_powerRZ; reflexivity). lra. Qed.

Lemma leb_fin a b : fin b -> fin a \/ val a = val a -> PrimFloat.leb a b = true -> fin a -> val a <= val b.
Proof. intros Fb _ H Fa. rewrite leb_val in H by assumption. unfold Rle_b in H. destruct (Rle_dec _ _); [assumption|discriminate]. Qed.

Lemma tinv_some k t x : ok t x ->
  ok (tinv k t) (/ x).
Proof.
  intros H. unfold tinv. cbv zeta. set (q := newton _ _ _ _). set (r := tsub _ _). set (d := addu _ (te r)).
  destruct (PrimFloat.leb d 0.5%float) eqn:E; [|apply ok_bad].
  split; [apply wf_TM|]. intros F G. cbn [te tc TM] in *. destruct (mulu_fin _ _ F) as [_ F1]. destruct (mulu_fin _ _ F1) as [F2 F3].
  destruct (addu_fin _ _ F3) as [F4 F5]. pose proof two_val as [T1 T2]. pose proof half_val as [H1 H2].
  assert (Hq : ok (TM q 0%float) (L2 q)). { split; [apply wf_TM|]. intros _ _. cbn [te tc TM]. rewrite Rminus_diag_eq, Rabs_R0, zero_val by reflexivity. lra. }
  pose proof (ok_sub _ _ _ _ (ok_mul k _ _ _ _ H Hq) (ok_cst 1%float)) as Hr. fold r in Hr.
  pose proof one_val as [O1 O2]. rewrite O2 in Hr.
  destruct (nrm_ok _ (proj1 Hr) F4) as (_ & G4 & Nr).
  pose proof (proj2 Hr F5 G4) as Xr. pose proof (te_pos _ _ Hr F5 G4) as Pe.
  pose proof (N2_pos (tc r)) as PN. pose proof (addu_le _ _ F3 ltac:(lra) Pe) as Ad. fold d in Ad.
  assert (Hd : val d <= / 2). { rewrite leb_val in E by assumption. unfold Rle_b in E. rewrite H2 in E. destruct (Rle_dec _ _); [assumption|discriminate]. }
  pose proof (L2_le (tc r)) as Lr.
  assert (Dl : Rabs (x * L2 q - 1) <= val d).
  { replace (x * L2 q - 1) with ((x * L2 q - 1 - L2 (tc r)) + L2 (tc r)) by ring. eapply Rle_trans; [apply Rabs_triang|]. lra. }
  destruct (nrm_ok _ (proj1 Hq) F2) as (_ & _ & Nq). cbn [tc TM] in Nq. pose proof (N2_pos q) as Pq.
  pose proof (L2_le q) as Lq.
  pose proof (mulu_le _ _ F1 ltac:(lra) ltac:(lra)) as A1.
  assert (P1 : 0 <= val (nrm (TM q 0%float)) * val d) by (apply Rmult_le_pos; lra).
  pose proof (mulu_le _ _ F ltac:(lra) ltac:(lra)) as A2. rewrite T2 in A2.
  assert (Hx : / 2 <= x * L2 q). { apply Rabs_le_inv in Dl. lra. }
  assert (Xn : x <> 0) by (intros ->; lra).
  replace (/ x - L2 q) with (- ((x * L2 q - 1) * / x)) by (field; exact Xn). rewrite Rabs_Ropp, Rabs_mult.
  assert (Ix : Rabs (/ x) <= 2 * N2 q).
  { rewrite Rabs_inv. 
    assert (Rabs x * Rabs (L2 q) >= / 2) by (rewrite <- Rabs_mult; apply Rle_ge; eapply Rle_trans; [exact Hx|apply Rle_abs]).
    assert (0 < Rabs x) by (apply Rabs_pos_lt; exact Xn).
    apply Rmult_le_reg_l with (Rabs x); [assumption|]. rewrite Rinv_r by lra.
    assert (Rabs x * Rabs (L2 q) <= Rabs x * N2 q) by (apply Rmult_le_compat_l; lra). lra. }
  assert (Rabs (x * L2 q - 1) * Rabs (/ x) <= val d * (2 * N2 q)) by (apply Rmult_le_compat; try apply Rabs_pos; assumption).
  assert (val d * (2 * N2 q) <= 2 * (val (nrm (TM q 0%float)) * val d)); [|lra].
  replace (val d * (2 * N2 q)) with (2 * (N2 q * val d)) by ring. apply Rmult_le_compat_l; [lra|]. apply Rmult_le_compat_r; lra.
Qed.
Definition ok_inv := tinv_some.

Lemma leb_inv a b : fin a -> fin b -> PrimFloat.leb a b = true -> val a <= val b.
Proof. intros Fa Fb H. rewrite leb_val in H by assumption. unfold Rle_b in H. destruct (Rle_dec _ _); [assumption|discriminate]. Qed.
Lemma ltb_inv a b : fin a -> fin b -> PrimFloat.ltb a b = true -> val a < val b.
Proof. intros Fa Fb H. rewrite ltb_val in H by assumption. unfold Rlt_b in H. destruct (Rlt_dec _ _); [assumption|discriminate]. Qed.

Lemma absle_ok t x b : ok t x -> fin b -> absle t b = true -> Rabs x <= val b.
Proof.
  intros H Fb E. unfold absle in E. cbv zeta in E. set (s := addu _ _) in *. apply andb_true_iff in E as [E0 E].
  assert (Fs : fin s) by (eapply fin_between; [exact zero_fin|exact Fb|exact E0|exact E]).
  destruct (addu_fin _ _ Fs) as [F1 F2]. destruct (nrm2_fin _ _ F1) as [_ G]. pose proof (proj2 H F2 G) as X.
  pose proof (te_pos _ _ H F2 G). pose proof (nrm2_le _ _ F1 ltac:(rewrite zero_val; lra)) as N0. rewrite zero_val in N0.
  pose proof (N2_pos (tc t)). pose proof (addu_le _ _ Fs ltac:(lra) ltac:(lra)) as A. fold s in A.
  apply (leb_inv _ _ Fs Fb) in E. 
  pose proof (L2_le (tc t)). replace x with ((x - L2 (tc t)) + L2 (tc t)) by ring.
  eapply Rle_trans; [apply Rabs_triang|]. lra.
Qed.
Lemma lpos_ok t x : ok t x -> lpos t = true -> 0 < x.
Proof.
  intros H E. unfold lpos in E. destruct (tc t) as [|[|y r] c] eqn:Et; try discriminate E. cbv zeta in E.
  set (s := addu _ _) in *. apply andb_true_iff in E as [E E2]. apply andb_true_iff in E as [E0 E1].
  assert (Fb : fin 0x1p1000%float) by (eapply fin_SF; vm_compute; reflexivity).
  assert (Fy : fin y).
  { apply (fin_between y 0%float 0x1p1000%float zero_fin Fb); [|exact E2].
    clear -E0 E1. rewrite leb_equiv in *. rewrite ltb_equiv in E1. unfold Bleb, Bltb, SFleb, SFltb in *.
    destruct (Prim2B s) as [|[]| |], (Prim2B y) as [|[]| |]; try discriminate; try reflexivity; cbn in *;
      repeat match goal with b : bool |- _ => destruct b end; try discriminate; reflexivity. }
  assert (Fs : fin s).
  { apply (fin_between s 0%float y zero_fin Fy); [exact E0|]. clear -E1. rewrite ltb_equiv in E1. rewrite leb_equiv.
    unfold Bleb, Bltb, SFleb, SFltb in *. destruct (SFcompare _ _) as [[]|]; try discriminate; reflexivity. }
  destruct (addu_fin _ _ Fs) as [F1 F2]. destruct (nrm2_fin _ _ F1) as [F3 G2]. destruct (nrm1_fin _ _ F3) as [_ G1].
  assert (G : f2 (tc t)) by (rewrite Et; constructor; [constructor; assumption|exact G2]).
  pose proof (proj2 H F2 G) as X. pose proof (te_pos _ _ H F2 G) as Pt.
  pose proof (nrm1_le _ _ F3 ltac:(rewrite zero_val; lra)) as M1. rewrite zero_val in M1. pose proof (N1_pos r).
  pose proof (nrm2_le _ _ F1 ltac:(lra)) as M2. pose proof (N2_pos c).
  pose proof (addu_le _ _ Fs ltac:(lra) Pt) as A. fold s in A. apply (ltb_inv _ _ Fs Fy) in E1.
  rewrite Et in X. cbn [L2 Ll fold_right] in X. change (fold_right _ 0 c) with (L2 c) in X.
  cbn [L1 Ll fold_right] in X. change (fold_right _ 0 r) with (L1 r) in X.
  pose proof (pw_le (L1 r) v Hv) as B1. pose proof (pw_le (L2 c) u Hu) as B2. pose proof (L2_le c) as B3.
  pose proof (al_N _ _ _ _ _ _ alg1 r) as B4.
  apply Rabs_le_inv in X. pose proof (Rabs_le_inv _ _ (Rle_trans _ _ _ B1 B4)) as C1. pose proof (Rabs_le_inv _ _ (Rle_trans _ _ _ B2 B3)) as C2. lra.
Qed.
Lemma lneg_ok t x : ok t x -> lneg t = true -> x < 0.
Proof. intros H E. pose proof (lpos_ok _ _ (ok_opp _ _ H) E). lra. Qed.
End Sem.

(* the variables of the box *)
Section Vars.
Variables (x0 x1 : float).
Definition upos (x : R) : R := (2 * x - (val x0 + val x1)) / (val x1 - val x0).
Lemma upos_le x : val x0 < val x1 -> val x0 <= x <= val x1 -> Rabs (upos x) <= 1.
Proof.
  intros Hx Hr. unfold upos. apply Rabs_le. split.
  - apply Rmult_le_reg_r with (val x1 - val x0); [lra|]. unfold Rdiv. rewrite Rmult_assoc, Rinv_l by lra. lra.
  - apply Rmult_le_reg_r with (val x1 - val x0); [lra|]. unfold Rdiv. rewrite Rmult_assoc, Rinv_l by lra. lra.
Qed.
Lemma var_core x : val x0 < val x1 -> val x0 <= x <= val x1 -> fin (verr x0 x1) -> fin (vmid x0 x1) -> fin (vrad x0 x1) ->
  Rabs (x - (val (vmid x0 x1) + upos x * val (vrad x0 x1))) <= val (verr x0 x1).
Proof.
  intros Hx Hr Fe Fm Fr. unfold verr, vmid, vrad in *. pose proof (upos_le x Hx Hr) as Hu.
  assert (Ex : x = (val x0 + val x1) / 2 + upos x * ((val x1 - val x0) / 2)) by (unfold upos; field; lra).
  set (w := upos x) in *. clearbody w.
  destruct (addu_fin _ _ Fe) as [Fe0 _]. destruct (mulu_fin _ _ Fe0) as [Fe1 _]. pose proof pos50 as [P1 P2].
  pose proof (addu_le _ _ Fe1 (abs_pos_val x0) (abs_pos_val x1)) as A1. rewrite !val_abs in A1.
  pose proof (Rabs_pos (val x0)) as Z0. pose proof (Rabs_pos (val x1)) as Z1.
  pose proof (mulu_le _ _ Fe0 ltac:(lra) ltac:(rewrite P2; lra)) as A2. rewrite P2 in A2.
  assert (Pt : 0 <= val tup) by (rewrite tup_val; apply bpow_ge_0).
  pose proof (addu_le _ _ Fe ltac:(lra) Pt) as A3. pose proof pow_tiny as [T1 T2]. rewrite tup_val in A3.
  pose proof half_val as [_ HV].
  assert (X : forall z S, fin (z * 0.5)%float -> Rabs (val z - S) <= / 9007199254740992 * Rabs S -> Rabs S <= Rabs (val x0) + Rabs (val x1) ->
    Rabs (val (z * 0.5)%float - S / 2) <= / 4503599627370496 * (Rabs (val x0) + Rabs (val x1)) + bpow radix2 (-1075)).
  { intros z S F H1 H2. pose proof (mul_err _ _ F) as E. rewrite HV in E.
    replace (val (z * 0.5)%float - S / 2) with ((val (z * 0.5)%float - val z * / 2) + (val z - S) * / 2) by field.
    eapply Rle_trans; [apply Rabs_triang|]. rewrite Rabs_mult in *. rewrite (Rabs_pos_eq (/ 2)) in * by lra.
    assert (Rabs (val z) <= 2 * Rabs S).
    { replace (val z) with ((val z - S) + S) by ring. eapply Rle_trans; [apply Rabs_triang|]. pose proof (Rabs_pos S). lra. }
    lra. }
  destruct (fin_mul _ _ Fm) as [Fm1 _]. destruct (fin_mul _ _ Fr) as [Fr1 _].
  pose proof (X _ _ Fm (add_err _ _ Fm1) (Rabs_triang _ _)) as B1.
  assert (B2 : Rabs (val ((x1 - x0) * 0.5)%float - (val x1 - val x0) / 2) <= / 4503599627370496 * (Rabs (val x0) + Rabs (val x1)) + bpow radix2 (-1075)).
  { apply X; [exact Fr| |].
    - apply sub_err. exact Fr1.
    - unfold Rminus. eapply Rle_trans; [apply Rabs_triang|]. rewrite Rabs_Ropp. lra. }
  set (m := val ((x0 + x1) * 0.5)%float) in *. set (r := val ((x1 - x0) * 0.5)%float) in *.
  replace (x - (m + w * r)) with (- (m - (val x0 + val x1) / 2) + - (w * (r - (val x1 - val x0) / 2))) by (rewrite Ex at 1; ring).
  eapply Rle_trans; [apply Rabs_triang|]. rewrite !Rabs_Ropp. pose proof (pw_le (r - (val x1 - val x0) / 2) w Hu). lra.
Qed.
Lemma ok_varu u v x : val x0 < val x1 -> val x0 <= x <= val x1 -> u = upos x -> ok u v (varu x0 x1) x.
Proof.
  intros Hx Hr ->. split; [apply wf_TM|]. intros F G. unfold varu in *. cbn [te tc TM] in *. inversion G as [|? ? G1 G2]; subst. inversion G2 as [|? ? G3 _]; subst.
  inversion G1; subst. inversion G3; subst. pose proof (var_core x Hx Hr F ltac:(assumption) ltac:(assumption)) as C.
  unfold L2, L1, Ll. cbn [fold_right]. rewrite !Rmult_0_r, !Rplus_0_r. exact C.
Qed.
Lemma ok_varv u v x : val x0 < val x1 -> val x0 <= x <= val x1 -> v = upos x -> ok u v (varv x0 x1) x.
Proof.
  intros Hx Hr ->. split; [apply wf_TM|]. intros F G. unfold varv in *. cbn [te tc TM] in *. inversion G as [|? ? G1 G2]; subst.
  inversion G1 as [|? ? G3 G4]; subst. inversion G4; subst. pose proof (var_core x Hx Hr F ltac:(assumption) ltac:(assumption)) as C.
  unfold L2, L1, Ll. cbn [fold_right]. rewrite !Rmult_0_r, !Rplus_0_r. exact C.
Qed.
End Vars.
