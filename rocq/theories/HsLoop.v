(* A pair (h, s) on which the pressure search of hs2T_reg4 runs for ever *)
From Coq Require Import ZArith List Bool Floats Lia PArith.
Import ListNotations.
From Verif Require Import Num Types Region Constant Boundaries Reg4 Api FloatInst Spec LoopFacts TermFacts FastHs.

(* a state that comes back is never left *)
Section Cycle.
Context {S R : Type} (body : S -> S + R).
Lemma cycle_iter b c : loop_nat body b c = inl c -> forall k, loop_nat body (k * b) c = inl c.
Proof. intros H k. induction k as [|k IH]; cbn; [reflexivity|]. rewrite loop_nat_add, H. exact IH. Qed.
Lemma cycle_runs a b s c : loop_nat body a s = inl c -> loop_nat body b c = inl c -> (0 < b)%nat ->
  forall n, exists x, loop_nat body n s = inl x.
Proof.
  intros Ha Hb B n. destruct (loop_nat body n s) as [x|r] eqn:E; [eauto|]. exfalso.
  assert (H : loop_nat body (a + n * b) s = inr r) by (apply (loop_nat_more _ n); [nia|exact E]).
  rewrite loop_nat_add, Ha, (cycle_iter b c Hb) in H. discriminate H.
Qed.
End Cycle.

Section Round.
Context {N : Arith}.
Open Scope num_scope.
(* one round of hs2T_reg4_iter *)
Definition hs_round (h s : num) (st : num * num * num * num) : num * num * num * num + num :=
  let '(p, sss, p_Low_Bound, p_High_Bound) := st in
  if nabs (s - sss) >? #1.0e-6 then
    let p := #0.5 * (p_Low_Bound + p_High_Bound) in
    let sss := hs2T_reg4_sss h p in
    if sss <? s then inl (p, sss, (#1.0 + (sss - s) / s) * p, p)
    else inl (p, sss, p, (#1.0 + (sss - s) / s) * p)
  else inr p.
Lemma iter_round fuel h s l u : hs2T_reg4_iter fuel h s l u =
  match loop_pos fuel (hs_round h s) (#0.0, #(-1000.0), l, u) with inr p => Some p | inl _ => None end.
Proof. reflexivity. Qed.
End Round.

Open Scope float_scope.
(* the same round with the fast functions *)
Definition roundf (h s : float) (st : float * float * float * float) : float * float * float * float + float :=
  let '(p, sss, l, u) := st in
  if 1e-6 <? PrimFloat.abs (s - sss) then
    let p := 0.5 * (l + u) in
    let sss := sssf h p in
    if sss <? s then inl (p, sss, (1 + (sss - s) / s) * p, p) else inl (p, sss, p, (1 + (sss - s) / s) * p)
  else inr p.
Lemma roundf_eq h s st : @hs_round FA h s st = roundf h s st.
Proof.
  destruct st as [[[p sss] l] u]. unfold hs_round, roundf.
  change (@ltb FA (@lit FA 1.0e-6%dec) (@nabs FA (@sub FA s sss))) with (1e-6 <? PrimFloat.abs (s - sss)).
  destruct (1e-6 <? PrimFloat.abs (s - sss)); [|reflexivity]. cbv zeta.
  change (@mul FA (@lit FA 0.5%dec) (@add FA l u)) with (0.5 * (l + u)). rewrite sssf_eq. reflexivity.
Qed.
Lemma loop_ext {S R : Type} (f g : S -> S + R) : (forall x, f x = g x) -> forall n x, loop_nat f n x = loop_nat g n x.
Proof.
  intros H n. induction n as [|n IH]; intros x; cbn; [reflexivity|]. rewrite H. destruct (g x); [apply IH|reflexivity].
Qed.

(* an ordinary wet state: enthalpy 1700 kJ/kg, entropy 3.825043 kJ/(kg K), pressure near
   16.529 MPa, where the saturated entropies change from regions 1 and 2 to region 3 *)
Definition hc : float := float_of_dec 1700.
Definition sc : float := float_of_dec 3.825043.
Definition st : float * float * float * float := (0, -1000, float_of_dec 0.000611212677444, @h2p_sat_reg3 FA hc).
Definition st' : float * float * float * float := Eval vm_compute in st.
Lemma st_eq : st = st'.
Proof. vm_compute. reflexivity. Qed.
(* rounds in binary, so that the count is not a unary number *)
Definition cyc_run := Eval vm_compute in loop_pos 3096 (roundf hc sc) st'.
Definition cyc : float * float * float * float := Eval vm_compute in match cyc_run with inl c => c | inr _ => st' end.
Definition hc' : float := Eval vm_compute in hc.
Definition sc' : float := Eval vm_compute in sc.
Lemma cyc_in : loop_pos 3096 (roundf hc' sc') st' = inl cyc.
Proof. vm_compute. reflexivity. Qed.
Lemma cyc_back : loop_nat (roundf hc' sc') 4 cyc = inl cyc.
Proof. vm_compute. reflexivity. Qed.

Lemma hs2T_runs fuel : @hs2T_reg4 FA fuel hc sc = None.
Proof.
  unfold hs2T_reg4.
  assert (B1 : (@ltb FA (@region4_T_hs_s4V_623 FA) sc && @ltb FA sc (@region4_T_hs_s4V_273 FA))%bool = false) by (vm_compute; reflexivity).
  assert (B2 : (@ltb FA (@region4_T_hs_s4L_273 FA) sc && @leb FA sc (@region4_T_hs_s4L_623 FA))%bool = false) by (vm_compute; reflexivity).
  assert (B3 : (@ltb FA (@region4_T_hs_s4L_623 FA) sc && @leb FA sc (@SC_WATER FA))%bool = true) by (vm_compute; reflexivity).
  assert (B4 : (@ltb FA (@SC_WATER FA) sc && @leb FA sc (@region4_T_hs_s4V_623 FA))%bool = false) by (vm_compute; reflexivity).
  rewrite B1, B2, B3, B4. rewrite iter_round, loop_pos_nat.
  change (@lit FA 0.0%dec, @lit FA (-1000.0)%dec, @P_MIN FA, @h2p_sat_reg3 FA hc) with st. rewrite st_eq.
  rewrite (loop_ext _ _ (roundf_eq hc sc)).
  pose proof cyc_in as I. rewrite loop_pos_nat in I.
  destruct (cycle_runs (roundf hc' sc') (Pos.to_nat 3096) 4 st' cyc I cyc_back (Nat.lt_0_succ _) (Pos.to_nat fuel)) as [x Hx].
  match goal with |- context [match ?l with inl _ => None | inr _ => _ end] => replace l with (@inl _ (@num FA) x) by (symmetry; exact Hx) end.
  reflexivity.
Qed.
Lemma region_c : @hs_sub_region FA hc sc = 4%Z.
Proof. vm_compute. reflexivity. Qed.

Lemma hs_runs fuel a : In (args_region a) [REGION_NONE; 4%Z] -> ~ In (args_o_id a) [OH; OS; OR] ->
  @call FA fuel HS hc sc a = None.
Proof.
  intros R O. cbn [call]. unfold hs, o_id_reg_info, pair_properties_o.
  assert (A : (args_o_id a =? OH)%Z = false) by (apply Z.eqb_neq; intros E; apply O; cbn; auto).
  assert (B : (args_o_id a =? OS)%Z = false) by (apply Z.eqb_neq; intros E; apply O; cbn; auto).
  assert (C : (args_o_id a =? OR)%Z = false) by (apply Z.eqb_neq; intros E; apply O; cbn; auto).
  rewrite A, B.
  assert (G : (if (args_region a =? REGION_NONE)%Z then Some (@hs_sub_region FA hc sc) else Some (args_region a)) = Some 4%Z).
  { rewrite region_c. destruct R as [<-|[<-|[]]]; reflexivity. }
  rewrite G, C. destruct (Z.eqb (args_o_id a) OX); unfold hs_reg4; rewrite hs2T_runs; reflexivity.
Qed.
Lemma hs_never : exists (h s : float), forall (fuel : positive) (a : o_id_region_args),
  In (args_region a) [REGION_NONE; 4%Z] -> ~ In (args_o_id a) [OH; OS; OR] -> @call FA fuel HS h s a = None.
Proof. exists hc. exists sc. exact hs_runs. Qed.
