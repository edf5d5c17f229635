(* Comparisons with the saturation line by integer arithmetic. *)
From Coq Require Import ZArith Reals Bool Lra Lia.
From Verif Require Import SpecReal SatInv.
Open Scope R_scope.

Lemma be_ge b x : 273.15 <= x <= 647.2 -> 0 < b -> 0 <= 2 * cC x + b * cB x -> 0 <= cA x * b ^ 2 + cB x * b + cC x -> b <= be x.
Proof.
  intros Hx Hb H1 H2. pose proof (den_pos x Hx) as D. pose proof (disc_pos x Hx) as Q. pose proof (C_pos x Hx) as HC. unfold be.
  set (s := sqrt _) in *. assert (S : s * s = cB x ^ 2 - 4 * cA x * cC x) by (apply sqrt_sqrt; lra).
  assert (P : 0 <= s) by apply sqrt_pos.
  apply Rmult_le_reg_r with (- cB x + s); [exact D|]. unfold Rdiv. rewrite Rmult_assoc, Rinv_l by lra.
  assert (K : b * s <= 2 * cC x + b * cB x); [|lra].
  apply Rsqr_incr_0_var; [|exact H1]. unfold Rsqr.
  replace (b * s * (b * s)) with (b ^ 2 * (s * s)) by ring. rewrite S.
  replace ((2 * cC x + b * cB x) * (2 * cC x + b * cB x)) with (b ^ 2 * (cB x ^ 2 - 4 * cA x * cC x) + 4 * cC x * (cA x * b ^ 2 + cB x * b + cC x)) by ring.
  assert (0 <= 4 * cC x * (cA x * b ^ 2 + cB x * b + cC x)) by (apply Rmult_le_pos; lra). lra.
Qed.
Lemma be_le b x : 273.15 <= x <= 647.2 -> 0 < b -> cA x * b ^ 2 + cB x * b + cC x <= 0 -> be x <= b.
Proof.
  intros Hx Hb H2. pose proof (den_pos x Hx) as D. pose proof (disc_pos x Hx) as Q. pose proof (C_pos x Hx) as HC. unfold be.
  set (s := sqrt _) in *. assert (S : s * s = cB x ^ 2 - 4 * cA x * cC x) by (apply sqrt_sqrt; lra).
  assert (P : 0 <= s) by apply sqrt_pos.
  apply Rmult_le_reg_r with (- cB x + s); [exact D|]. unfold Rdiv. rewrite Rmult_assoc, Rinv_l by lra.
  assert (K : 2 * cC x + b * cB x <= b * s); [|lra].
  destruct (Rle_or_lt (2 * cC x + b * cB x) 0) as [N|N].
  { pose proof (Rmult_le_pos b s ltac:(lra) P). lra. }
  apply Rsqr_incr_0_var; [|apply Rmult_le_pos; lra]. unfold Rsqr.
  replace (b * s * (b * s)) with (b ^ 2 * (s * s)) by ring. rewrite S.
  replace ((2 * cC x + b * cB x) * (2 * cC x + b * cB x)) with (b ^ 2 * (cB x ^ 2 - 4 * cA x * cC x) + 4 * cC x * (cA x * b ^ 2 + cB x * b + cC x)) by ring.
  assert (0 <= 4 * cC x * - (cA x * b ^ 2 + cB x * b + cC x)) by (apply Rmult_le_pos; lra). lra.
Qed.
Lemma psat_ge b T : 273.15 <= T <= 647.096 -> 0 < b -> 0 <= 2 * cC (th T) + b * cB (th T) ->
  0 <= cA (th T) * b ^ 2 + cB (th T) * b + cC (th T) -> b ^ 4 <= if97_psat T.
Proof. intros H Hb H1 H2. rewrite psat_be. apply pow_incr. split; [lra|]. apply be_ge; try assumption. apply th_range; exact H. Qed.
Lemma psat_le b T : 273.15 <= T <= 647.096 -> 0 < b ->
  cA (th T) * b ^ 2 + cB (th T) * b + cC (th T) <= 0 -> if97_psat T <= b ^ 4.
Proof.
  intros H Hb H2. rewrite psat_be. pose proof (th_range T H). apply pow_incr. split; [left; apply be_pos; assumption|]. apply be_le; assumption.
Qed.


(* the comparison of b = bz/10^9 with the saturation line at T = t/10^4, in integers *)
Definition zd (t : Z) : Z := 65017534844798000 - t * 10000000000.
Definition znu (t : Z) : Z := t * 10000000000 * zd t + 2385555756784900000000000000.
Definition zde (t : Z) : Z := 100000000000000 * zd t.
Definition zA (t : Z) : Z := let n := znu t in let d := zde t in 1000000000000 * n * n + 1167052145276700 * n * d - 724213167032060000 * d * d.
Definition zB (t : Z) : Z := let n := znu t in let d := zde t in - 17073846940092 * n * n + 12020824702470000 * n * d - 3232555032233300000 * d * d.
Definition zC (t : Z) : Z := let n := znu t in let d := zde t in 14915108613530 * n * n - 4823265736159100 * n * d + 405113405420570000 * d * d.
Definition zq (t b : Z) : Z := zA t * b * b + zB t * b * 1000000000 + zC t * 1000000000000000000.
Definition zge (t b : Z) : bool := ((0 <? b) && (2731500 <=? t) && (t <=? 6470960) && (0 <=? 2 * zC t * 1000000000 + b * zB t) && (0 <=? zq t b))%Z.
Definition zle (t b : Z) : bool := ((0 <? b) && (2731500 <=? t) && (t <=? 6470960) && (zq t b <=? 0))%Z.
Ltac zpow := unfold Q2R; cbn [QArith_base.Qnum QArith_base.Qden].
Section Z.
Variable t : Z.
Hypothesis Ht : (2731500 <= t <= 6470960)%Z.
Let T := IZR t / 10000.
Lemma z_T : 273.15 <= T <= 647.096.
Proof. destruct Ht as [H1 H2]. apply IZR_le in H1, H2. unfold T. lra. Qed.
Lemma z_d : 0 < IZR (zd t).
Proof. apply IZR_lt. unfold zd. lia. Qed.
Lemma z_th : th T = IZR (znu t) / IZR (zde t).
Proof.
  pose proof z_d as D. unfold znu, zde, zd in *. repeat rewrite ?mult_IZR, ?plus_IZR, ?minus_IZR. rewrite minus_IZR, mult_IZR in D.
  unfold th, T. zpow. field. split; lra.
Qed.
Lemma z_A : cA (th T) = IZR (zA t) / (1000000000000 * IZR (zde t) ^ 2).
Proof.
  assert (D : IZR (zde t) <> 0) by (unfold zde; rewrite mult_IZR; pose proof z_d; lra).
  rewrite z_th. unfold cA, zA. cbv zeta. repeat rewrite ?mult_IZR, ?plus_IZR, ?minus_IZR. zpow. field. exact D.
Qed.
Lemma z_B : cB (th T) = IZR (zB t) / (1000000000000 * IZR (zde t) ^ 2).
Proof.
  assert (D : IZR (zde t) <> 0) by (unfold zde; rewrite mult_IZR; pose proof z_d; lra).
  rewrite z_th. unfold cB, zB. cbv zeta. repeat rewrite ?mult_IZR, ?plus_IZR, ?minus_IZR. change (IZR (- 17073846940092)) with (- 17073846940092). zpow. field. exact D.
Qed.
Lemma z_C : cC (th T) = IZR (zC t) / (1000000000000 * IZR (zde t) ^ 2).
Proof.
  assert (D : IZR (zde t) <> 0) by (unfold zde; rewrite mult_IZR; pose proof z_d; lra).
  rewrite z_th. unfold cC, zC. cbv zeta. repeat rewrite ?mult_IZR, ?plus_IZR, ?minus_IZR. zpow. field. exact D.
Qed.
Lemma z_q b : cA (th T) * (IZR b / 1000000000) ^ 2 + cB (th T) * (IZR b / 1000000000) + cC (th T) = IZR (zq t b) / (1000000000000 * IZR (zde t) ^ 2 * 1000000000000000000).
Proof.
  assert (D : IZR (zde t) <> 0) by (unfold zde; rewrite mult_IZR; pose proof z_d; lra).
  rewrite z_A, z_B, z_C. unfold zq. rewrite !plus_IZR, !mult_IZR. zpow. field. exact D.
Qed.
Lemma z_pos : 0 < 1000000000000 * IZR (zde t) ^ 2.
Proof. apply Rmult_lt_0_compat; [lra|]. apply pow_lt. unfold zde. rewrite mult_IZR. pose proof z_d. lra. Qed.
End Z.
Lemma div_nn a c : 0 <= a -> 0 < c -> 0 <= a / c.
Proof. intros. apply Rmult_le_pos; [assumption|]. left. apply Rinv_0_lt_compat. assumption. Qed.
Lemma zge_ok t b : zge t b = true -> 273.15 <= IZR t / 10000 <= 647.096 /\ (IZR b / 1000000000) ^ 4 <= if97_psat (IZR t / 10000).
Proof.
  unfold zge. rewrite !andb_true_iff, Z.ltb_lt, !Z.leb_le. intros ((((H1 & H2) & H3) & H4) & H5). assert (Ht : (2731500 <= t <= 6470960)%Z) by lia.
  pose proof (z_T t Ht) as R. split; [exact R|]. pose proof (z_pos t Ht) as P. apply IZR_lt in H1. apply psat_ge; [exact R|lra| |].
  - rewrite (z_C t Ht), (z_B t Ht). apply IZR_le in H4. rewrite plus_IZR, !mult_IZR in H4.
    replace (2 * (IZR (zC t) / (1000000000000 * IZR (zde t) ^ 2)) + IZR b / 1000000000 * (IZR (zB t) / (1000000000000 * IZR (zde t) ^ 2)))
      with ((2 * IZR (zC t) * 1000000000 + IZR b * IZR (zB t)) / 1000000000 / (1000000000000 * IZR (zde t) ^ 2)) by (field; intros E; rewrite E in P; simpl in P; lra).
    apply div_nn; [lra|exact P].
  - rewrite (z_q t Ht). apply div_nn; [apply IZR_le; exact H5|]. apply Rmult_lt_0_compat; [exact P|lra].
Qed.
Lemma zle_ok t b : zle t b = true -> 273.15 <= IZR t / 10000 <= 647.096 /\ if97_psat (IZR t / 10000) <= (IZR b / 1000000000) ^ 4.
Proof.
  unfold zle. rewrite !andb_true_iff, Z.ltb_lt, !Z.leb_le. intros (((H1 & H2) & H3) & H5). assert (Ht : (2731500 <= t <= 6470960)%Z) by lia.
  pose proof (z_T t Ht) as R. split; [exact R|]. pose proof (z_pos t Ht) as P. apply IZR_lt in H1. apply psat_le; [exact R|lra|].
  rewrite (z_q t Ht). apply Ropp_le_cancel. rewrite Ropp_0. 
  replace (- (IZR (zq t b) / (1000000000000 * IZR (zde t) ^ 2 * 1000000000000000000))) with (IZR (- zq t b) / (1000000000000 * IZR (zde t) ^ 2 * 1000000000000000000))
    by (rewrite opp_IZR; unfold Rdiv; ring).
  apply div_nn; [apply IZR_le; lia|]. apply Rmult_lt_0_compat; [exact P|lra].
Qed.
