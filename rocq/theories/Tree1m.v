(* The covers of region 1 for the region of (h,s). *)
From Coq Require Import ZArith List Bool Floats Reals Lra.
From Verif Require Import Num FloatUp FloatErr RSums Taylor TaylorSum TaylorSub Enc1 Enc2 Enc2hs Enc2m Enc1m SpecReal SatInv Bound1 Tree1 Bound2 Tree2 Bound2hs Bound2m Bound1m Tree2m.
Import ListNotations.
Open Scope R_scope.

Lemma ch_u : line (l_u 8) 12 fs0 f336 = true. Proof. vm_compute. reflexivity. Qed.
Lemma ch_l : line (l_l 8) 12 fs0 f336 = true. Proof. vm_compute. reflexivity. Qed.
Lemma ch_t : line (l_t 8) 10 my583 by1 = true. Proof. vm_compute. reflexivity. Qed.
Lemma ch_r : line (l_r 8) 10 my583 by1 = true. Proof. vm_compute. reflexivity. Qed.
Lemma ch_0 : line (l_0 4) 8 mx998 bx1 = true. Proof. vm_compute. reflexivity. Qed.
Lemma ch_S : lineS 5 10 = true. Proof. vm_compute. reflexivity. Qed.
Definition tr_1m : tree := Eval vm_compute in build (lf1m 6) out1 14 false bx0 bx1 my583 by1.
Lemma ch_1m : check (lf1m 6) out1 tr_1m bx0 bx1 my583 by1 = true. Proof. vm_compute. reflexivity. Qed.

Lemma cov_u s : val fs0 <= s <= val f336 -> 0 < 1 / 1 * U1r s + -1700 / 1 * hlr s.
Proof. intros H. refine (line_ok _ (fun s => 0 < 1 / 1 * U1r s + -1700 / 1 * hlr s) _ _ _ _ s ch_u H). intros a b x B L Hx. exact (l_u_ok a b x B Hx 8 L). Qed.
Lemma cov_l s : val fs0 <= s <= val f336 -> 0 < y100 s /\ L1r s < h1r x100 (y100 s).
Proof. intros H. refine (line_ok _ (fun s => 0 < y100 s /\ L1r s < h1r x100 (y100 s)) _ _ _ _ s ch_l H). intros a b x B L Hx. exact (l_l_ok a b x B Hx 8 L). Qed.
Lemma cov_t y : val my583 <= y <= val by1 -> h1r x100 y < L1r (s1r x100 y) + 5 / 32.
Proof. intros H. refine (line_ok _ (fun y => h1r x100 y < L1r (s1r x100 y) + 5 / 32) _ _ _ _ y ch_t H). intros a b x B L Hx. exact (l_t_ok a b x B Hx 8 L). Qed.
Lemma cov_r y : val my583 <= y <= val by1 -> 0 < y100 (s1r x100 y) /\ h1r x100 (y100 (s1r x100 y)) < h1r x100 y.
Proof. intros H. refine (line_ok _ (fun y => 0 < y100 (s1r x100 y) /\ h1r x100 (y100 (s1r x100 y)) < h1r x100 y) _ _ _ _ y ch_r H). intros a b x B L Hx. exact (l_r_ok a b x B Hx 8 L). Qed.
Lemma cov_0 x : val mx998 <= x <= val bx1 -> val fsm < s1r x y273r.
Proof. intros H. refine (line_ok _ (fun x => val fsm < s1r x y273r) _ _ _ _ x ch_0 H). intros a b z B L Hx. exact (l_0_ok a b z B Hx 4 L). Qed.
Lemma lineS_ok n k l : forallb (fun p : float * float * float * list float => let '(a, b, c, cs) := p in line (lfS k c cs) n a b) l = true ->
  forall lo, fin lo -> chained lo l = true -> forall y, val lo <= y <= val (endp lo l) -> l <> [] -> 273.15 <= Ts_of y <= 647.096 ->
  U1r (s1r (xS (bs y)) (yS y)) < h1r (xS (bs y)) (yS y) + / 256.
Proof.
  induction l as [|[[[a b] c] cs] l IH]; intros F lo Fl C y Hy N HT; [congruence|]. cbn [forallb] in F. apply andb_true_iff in F as [F1 F2].
  cbn [chained] in C. apply andb_true_iff in C as [C1 C2]. cbn [endp] in Hy.
  assert (B : between a b = true) by (destruct n; cbn [line] in F1; destruct (between a b); [reflexivity|discriminate|reflexivity|discriminate]).
  destruct (between_ok _ _ B) as (Fa & Fb & L). pose proof (leb_inv _ _ Fa Fl C1) as La.
  destruct (Rle_lt_dec y (val b)) as [D|D].
  - revert HT. refine (line_ok _ (fun y => 273.15 <= Ts_of y <= 647.096 -> U1r (s1r (xS (bs y)) (yS y)) < h1r (xS (bs y)) (yS y) + / 256) _ _ _ _ y F1 _); [|lra].
    intros a' b' x' _ L' Hx. exact (lfS_ok k c cs a' b' x' L' Hx).
  - destruct l as [|p l]; [cbn [endp] in Hy; lra|]. apply (IH F2 b Fb C2 y); [lra|congruence|exact HT].
Qed.
Lemma cov_S y : val 0x1.b4p-2%float <= y <= val (endp 0%float guess1) -> 273.15 <= Ts_of y <= 647.096 ->
  U1r (s1r (xS (bs y)) (yS y)) < h1r (xS (bs y)) (yS y) + / 256.
Proof.
  intros Hy. apply (lineS_ok 5 10 guess1 ch_S 0x1.b4p-2%float); [eapply fin_SF; vm_compute; reflexivity|vm_compute; reflexivity|exact Hy|discriminate].
Qed.
Lemma cov_1m x y : val bx0 <= x <= val bx1 -> val my583 <= y <= val by1 -> reg1xy x y -> F1 x y.
Proof.
  revert x y. intros x y Hx Hy. revert Hx Hy. generalize ch_1m. apply (check_ok (lf1m 6) out1 (fun x y => reg1xy x y -> F1 x y)).
  - intros x0 x1 y0 y1 a b L Ha Hb _. exact (lf1m_ok 6 _ _ _ _ _ _ L Ha Hb).
  - intros x0 x1 y0 y1 a b O Ha Hb R. destruct (out1_ok _ _ _ _ _ _ O Ha Hb R).
Qed.

(* ---- values at corners ---- *)
Definition y623e (k : nat) : tm := tlin k [(0x1.1cb20c33842e1p+1%float, one); ((-1.222)%float, one)].
Definition y623m : R := 138600 / 62315 * 1 + -1222 / 1000.
Lemma zz : Rabs 0 <= 1. Proof. rewrite Rabs_R0. lra. Qed.
Lemma s_min : s1r x100 y273r < val fsm.
Proof.
  assert (OY : ok 0 0 (y273e 3) y273r) by (apply (lin_one 0 0 zz zz); [exact (ok_tone 0 0)|vm_compute; reflexivity|vm_compute; reflexivity]).
  refine (ltc_ok 0 0 zz zz _ _ (s1E_ok 0 0 zz zz 3 _ _ _ _ (x100_ok 0 0 zz zz 3) OY _) fsm _); [unfold y273r; lra|vm_compute; reflexivity].
Qed.
Lemma s_min0 : val fs0 < s1r x100 y273r.
Proof.
  assert (OY : ok 0 0 (y273e 3) y273r) by (apply (lin_one 0 0 zz zz); [exact (ok_tone 0 0)|vm_compute; reflexivity|vm_compute; reflexivity]).
  refine (gtc_ok 0 0 zz zz _ _ (s1E_ok 0 0 zz zz 3 _ _ _ _ (x100_ok 0 0 zz zz 3) OY _) fs0 _); [unfold y273r; lra|vm_compute; reflexivity].
Qed.
Lemma s_13 : val f336 < s1r x100 y623m.
Proof.
  assert (OY : ok 0 0 (y623e 3) y623m) by (apply (lin_one 0 0 zz zz); [exact (ok_tone 0 0)|vm_compute; reflexivity|vm_compute; reflexivity]).
  refine (gtc_ok 0 0 zz zz _ _ (s1E_ok 0 0 zz zz 3 _ _ _ _ (x100_ok 0 0 zz zz 3) OY _) f336 _); [unfold y623m; lra|vm_compute; reflexivity].
Qed.
