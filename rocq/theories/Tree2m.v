(* The covers of region 2 for the region of (h,s). *)
From Coq Require Import ZArith List Bool Floats Reals Lra.
From Verif Require Import Num FloatUp FloatErr RSums Taylor TaylorSum TaylorSub Enc1 Enc2 Enc2hs Enc2m SpecReal SatInv Bound1 Tree1 Bound2 Tree2 Bound2hs Bound2m.
Import ListNotations.
Open Scope R_scope.

Lemma ch_ab : line (l_ab 12) 12 f585l f915 = true. Proof. vm_compute. reflexivity. Qed.
Lemma ch_cb : line (l_cb 8) 12 f504 f585h = true. Proof. vm_compute. reflexivity. Qed.
Lemma ch_tb : line (l_tb 8) 12 f585l f604 = true. Proof. vm_compute. reflexivity. Qed.
Lemma ch_tc : line (l_tc 8) 12 f509 f585h = true. Proof. vm_compute. reflexivity. Qed.
Lemma ch_A : lineA 6 10 = true. Proof. vm_compute. reflexivity. Qed.
Lemma ch_B : line (lfB 10) 8 f623 f863 = true. Proof. vm_compute. reflexivity. Qed.
Lemma ch_E : line (lfE 10) 8 aq0 am2 = true. Proof. vm_compute. reflexivity. Qed.
Definition tr_T : tree := Eval vm_compute in build2 (lfT 10) noout cut0 14 false 2563%float 2813%float f504 f526h.
Lemma ch_T : check (lfT 10) noout tr_T 2563%float 2813%float f504 f526h = true. Proof. vm_compute. reflexivity. Qed.
Definition tr_sl : tree := Eval vm_compute in build2 (lfSl 10) noout cut0 14 false 2563%float 2813%float f504 f526h.
Lemma ch_sl : check (lfSl 10) noout tr_sl 2563%float 2813%float f504 f526h = true. Proof. vm_compute. reflexivity. Qed.
Definition tr_m : tree := Eval vm_compute in build2 (lfm 5 6 8) oq cutq 24 false am3 am4 ay0 ay1.
Lemma ch_m : check (lfm 5 6 8) oq tr_m am3 am4 ay0 ay1 = true. Proof. vm_compute. reflexivity. Qed.

Lemma cov_ab s : val f585l <= s <= val f915 -> 0 < s /\ 0 < Uabr s /\ 0 < gabr s.
Proof. intros H. refine (line_ok _ (fun s => 0 < s /\ 0 < Uabr s /\ 0 < gabr s) _ _ _ _ s ch_ab H). intros a b x B L Hx. exact (l_ab_ok a b x B Hx 12 L). Qed.
Lemma cov_cb s : val f504 <= s <= val f585h -> 0 < gcbr s.
Proof. intros H. refine (line_ok _ (fun s => 0 < gcbr s) _ _ _ _ s ch_cb H). intros a b x B L Hx. exact (l_cb_ok a b x B Hx 8 L). Qed.
Lemma cov_tb s : val f585l <= s <= val f604 -> 0 < gtopr (topb s) s /\ 0 < ytop (topb s).
Proof. intros H. refine (line_ok _ (fun s => 0 < gtopr (topb s) s /\ 0 < ytop (topb s)) _ _ _ _ s ch_tb H). intros a b x B L Hx. exact (l_tb_ok a b x B Hx 8 L). Qed.
Lemma cov_tc s : val f509 <= s <= val f585h -> 0 < gtopr (topc s) s /\ 0 < ytop (topc s).
Proof. intros H. refine (line_ok _ (fun s => 0 < gtopr (topc s) s /\ 0 < ytop (topc s)) _ _ _ _ s ch_tc H). intros a b x B L Hx. exact (l_tc_ok a b x B Hx 8 L). Qed.
Lemma cov_B T : val f623 <= T <= val f863 -> 0 < xB T -> 0 < yB T -> FB (xB T) (yB T).
Proof. intros H. refine (line_ok _ (fun T => 0 < xB T -> 0 < yB T -> FB (xB T) (yB T)) _ _ _ _ T ch_B H). intros a b x B L Hx. exact (lfB_ok 10 a b x L Hx). Qed.
Lemma cov_E q : val aq0 <= q <= val am2 -> hv (xq q) y7 < hv (1000126 / 1000000 * xq q) y8.
Proof. intros H. refine (line_ok _ (fun q => hv (xq q) y7 < hv (1000126 / 1000000 * xq q) y8) _ _ _ _ q ch_E H). intros a b x B L Hx. exact (lfE_ok 10 a b x L Hx). Qed.
Lemma v2563 : val 2563%float = 2563 /\ val 2813%float = 2813. Proof. split; flv; lra. Qed.
Lemma cov_T h s : 2563 <= h <= 2813 -> val f504 <= s <= val f526h -> 2563 <= h -> 5 <= s -> TLr h s < ths h s.
Proof.
  intros Hh Hs. destruct v2563 as [E1 E2]. assert (Hh' : val 2563%float <= h <= val 2813%float) by (rewrite E1, E2; exact Hh).
  refine (check_ok (lfT 10) noout (fun h s => 2563 <= h -> 5 <= s -> TLr h s < ths h s) _ _ tr_T _ _ _ _ h s ch_T Hh' Hs).
  - intros x0 x1 y0 y1 x y L Hx Hy. unfold lfT in L. destruct (boxok x0 x1 y0 y1) eqn:B; [|discriminate]. exact (th_box x0 x1 y0 y1 x y B Hx Hy 10 L).
  - intros x0 x1 y0 y1 x y O. discriminate O.
Qed.
Lemma cov_sl h s : 2563 <= h <= 2813 -> val f504 <= s <= val f526h -> 0 < sloper h s /\ 0 < Px (map rrow tTL) (uHr h) (uSr s) /\ 580 < TLr h s.
Proof.
  intros Hh Hs. destruct v2563 as [E1 E2]. assert (Hh' : val 2563%float <= h <= val 2813%float) by (rewrite E1, E2; exact Hh).
  refine (check_ok (lfSl 10) noout (fun h s => 0 < sloper h s /\ 0 < Px (map rrow tTL) (uHr h) (uSr s) /\ 580 < TLr h s) _ _ tr_sl _ _ _ _ h s ch_sl Hh' Hs).
  - intros x0 x1 y0 y1 x y L Hx Hy. unfold lfSl in L. destruct (boxok x0 x1 y0 y1) eqn:B; [|discriminate]. exact (slope_box x0 x1 y0 y1 x y B Hx Hy 10 L).
  - intros x0 x1 y0 y1 x y O. discriminate O.
Qed.
Fixpoint chained (lo : float) (l : list (float * float * float * list float)) : bool :=
  match l with [] => true | (a, b, _, _) :: r => PrimFloat.leb a lo && chained b r end.
Fixpoint endp (lo : float) (l : list (float * float * float * list float)) : float :=
  match l with [] => lo | (_, b, _, _) :: r => endp b r end.
Lemma lineA_ok n k l : forallb (fun p : float * float * float * list float => let '(a, b, c, cs) := p in line (lfA k c cs) n a b) l = true ->
  forall lo, fin lo -> chained lo l = true -> forall y, val lo <= y <= val (endp lo l) -> l <> [] -> 273.15 <= Ts_of y <= 647.096 -> FA (xq (bs y)) y.
Proof.
  induction l as [|[[[a b] c] cs] l IH]; intros F lo Fl C y Hy N HT; [congruence|]. cbn [forallb] in F. apply andb_true_iff in F as [F1 F2].
  cbn [chained] in C. apply andb_true_iff in C as [C1 C2]. cbn [endp] in Hy.
  assert (B : between a b = true) by (destruct n; cbn [line] in F1; destruct (between a b); [reflexivity|discriminate|reflexivity|discriminate]).
  destruct (between_ok _ _ B) as (Fa & Fb & L). pose proof (leb_inv _ _ Fa Fl C1) as La.
  destruct (Rle_lt_dec y (val b)) as [D|D].
  - revert HT. refine (line_ok _ (fun y => 273.15 <= Ts_of y <= 647.096 -> FA (xq (bs y)) y) _ _ _ _ y F1 _); [|lra].
    intros a' b' x' _ L' Hx. exact (lfA_ok k c cs a' b' x' L' Hx).
  - destruct l as [|p l]; [cbn [endp] in Hy; lra|]. apply (IH F2 b Fb C2 y); [lra|congruence|exact HT].
Qed.
Lemma cov_A y : val 0x1.775cp-2%float <= y <= val (endp 0%float guess) -> 273.15 <= Ts_of y <= 647.096 -> FA (xq (bs y)) y.
Proof.
  intros Hy. apply (lineA_ok 6 10 guess ch_A 0x1.775cp-2%float); [eapply fin_SF; vm_compute; reflexivity|vm_compute; reflexivity|exact Hy|discriminate].
Qed.
Lemma cov_m q y : val am3 <= q <= val am4 -> val ay0 <= y <= val ay1 -> 0 < q -> reg2xy (xq q) y -> FM q y.
Proof.
  intros Q Y. revert Q Y. refine (check_ok (lfm 5 6 8) oq (fun q y => 0 < q -> reg2xy (xq q) y -> FM q y) _ _ tr_m _ _ _ _ q y ch_m).
  - intros x0 x1 y0 y1 x z L Hx Hy P R. exact (lfm_ok _ _ _ _ _ _ _ _ _ L P Hx Hy R).
  - intros x0 x1 y0 y1 x z O Hx Hy P R. destruct (oq_ok _ _ _ _ _ _ O Hx Hy R).
Qed.
