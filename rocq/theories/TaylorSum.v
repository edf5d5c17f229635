(* Enclosures of table sums (RSums.P) over boxes, and covers of rectangles by boxes. *)
From Coq Require Import ZArith Reals List Bool Floats Lra Lia Psatz.
From Flocq Require Import Core.Core IEEE754.BinarySingleNaN IEEE754.PrimFloat.
From Verif Require Import Num RealInst FloatInst NanFacts FloatOrder FloatErr FloatUp TermFloat Steps RSums Taylor.
Import ListNotations.
Open Scope R_scope.

(* the decimal tables of the model: an arithmetic whose numbers are the literals *)
Definition DArith : Arith := {|
  num := dec;
  add := fun a _ => a; sub := fun a _ => a; mul := fun a _ => a; div := fun a _ => a;
  opp := fun d => Dec (- dm d) (de d); nabs := fun a => a; nsqrt := fun a => a;
  powi := fun a _ => a; powf := fun a _ => a; nexp := fun a => a; nln := fun a => a;
  ltb := fun _ _ => false; leb := fun _ _ => false; eqb := fun _ _ => false;
  lit := fun d => d; ofZ := fun z => Dec z 0 |}.
Notation drow := (Z * Z * dec)%type.
Definition rrow (e : drow) : Z * Z * R := (fst e, R_of_dec (snd e)).

(* ---- a binary64 number close to a decimal ---- *)
Definition decq (d : dec) : Z * Z :=
  match de d with
  | Z0 => (dm d, 1%Z)
  | Zpos k => ((dm d * Z.pow_pos 10 k)%Z, 1%Z)
  | Zneg k => (dm d, Z.pow_pos 10 k)
  end.
Definition flq (f : float) : option (Z * Z) :=
  match Prim2SF f with
  | S754_finite s m e =>
      let z := if s then Zneg m else Zpos m in
      Some (match e with
            | Z0 => (z, 1%Z)
            | Zpos k => ((z * Z.pow_pos 2 k)%Z, 1%Z)
            | Zneg k => (z, Z.pow_pos 2 k)
            end)
  | _ => None
  end.
Definition decok (d : dec) (f : float) : bool :=
  match flq f with
  | Some (fn, fd) =>
      let '(dn, dd) := decq d in
      (Z.abs (dn * fd - fn * dd) * 1125899906842624 <=? Z.abs fn * dd)%Z
  | None => false
  end.
Lemma decq_ok d : (0 < snd (decq d))%Z /\ R_of_dec d = IZR (fst (decq d)) / IZR (snd (decq d)).
Proof.
  unfold decq, R_of_dec. destruct (de d) as [|k|k]; cbn [fst snd]; (split; [first [lia|apply (Z.pow_pos_nonneg 10 (Zpos k)); lia]|]); try reflexivity; field.
Qed.
Lemma flq_ok f a b : flq f = Some (a, b) -> (0 < b)%Z /\ val f = IZR a / IZR b.
Proof.
  unfold flq. destruct (Prim2SF f) as [| | |s m e] eqn:E; try discriminate. intros H.
  rewrite (val_SF _ _ _ _ E).
  assert (Z1 : (if s then - IZR (Zpos m) else IZR (Zpos m)) = IZR (if s then Zneg m else Zpos m)).
  { destruct s; [rewrite <- opp_IZR; reflexivity|reflexivity]. }
  rewrite Z1. change 2 with (IZR radix2). rewrite <- bpow_powerRZ.
  destruct e as [|k|k]; injection H as <- <-.
  - split; [lia|]. cbn [bpow]. field.
  - split; [lia|]. cbn [bpow]. rewrite mult_IZR. change (Z.pow_pos radix2 k) with (Z.pow_pos 2 k). field.
  - split; [apply (Z.pow_pos_nonneg 2 (Zpos k)); lia|]. cbn [bpow]. change (Z.pow_pos radix2 k) with (Z.pow_pos 2 k). reflexivity.
Qed.
Lemma decok_ok d f : decok d f = true -> Rabs (R_of_dec d - val f) <= / 1125899906842624 * Rabs (val f).
Proof.
  unfold decok. destruct (flq f) as [[fn fd]|] eqn:E; [|discriminate]. destruct (flq_ok _ _ _ E) as [Hf ->].
  destruct (decq_ok d) as [Hd ->]. destruct (decq d) as [dn dd]. cbn [fst snd] in *. intros H. apply Z.leb_le in H.
  apply IZR_le in H. rewrite !mult_IZR, abs_IZR, minus_IZR, !mult_IZR, abs_IZR in H.
  apply IZR_lt in Hf. apply IZR_lt in Hd. set (a := IZR dn) in *. set (b := IZR dd) in *. set (c := IZR fn) in *. set (e := IZR fd) in *.
  replace (a / b - c / e) with ((a * e - c * b) * / (b * e)) by (field; split; apply Rgt_not_eq; assumption).
  unfold Rdiv. rewrite !Rabs_mult. assert (Hbe : 0 < b * e) by (apply Rmult_lt_0_compat; assumption).
  rewrite !(Rabs_pos_eq (/ _)) by (left; apply Rinv_0_lt_compat; assumption).
  apply Rmult_le_reg_r with (b * e); [assumption|]. rewrite Rmult_assoc, Rinv_l by lra.
  replace (/ 1125899906842624 * (Rabs c * / e) * (b * e)) with (/ 1125899906842624 * (Rabs c * b)) by (field; lra). lra.
Qed.
(* the same for a fraction *)
Definition ratok (a : Z) (b : positive) (f : float) : bool :=
  match flq f with
  | Some (fn, fd) => (Z.abs (a * fd - fn * Zpos b) * 1125899906842624 <=? Z.abs fn * Zpos b)%Z
  | None => false
  end.
Lemma ratok_ok a b f : ratok a b f = true -> Rabs (IZR a / IZR (Zpos b) - val f) <= / 1125899906842624 * Rabs (val f).
Proof.
  unfold ratok. destruct (flq f) as [[fn fd]|] eqn:E; [|discriminate]. destruct (flq_ok _ _ _ E) as [Hf ->].
  intros H. apply Z.leb_le in H. assert (Hd : 0 < IZR (Zpos b)) by (apply IZR_lt; lia).
  apply IZR_le in H. rewrite !mult_IZR, abs_IZR, minus_IZR, !mult_IZR, abs_IZR in H.
  apply IZR_lt in Hf. set (x := IZR a) in *. set (y := IZR (Zpos b)) in *. set (c := IZR fn) in *. set (e := IZR fd) in *.
  replace (x / y - c / e) with ((x * e - c * y) * / (y * e)) by (field; split; apply Rgt_not_eq; assumption).
  unfold Rdiv. rewrite !Rabs_mult. assert (Hbe : 0 < y * e) by (apply Rmult_lt_0_compat; assumption).
  rewrite !(Rabs_pos_eq (/ _)) by (left; apply Rinv_0_lt_compat; assumption).
  apply Rmult_le_reg_r with (y * e); [assumption|]. rewrite Rmult_assoc, Rinv_l by lra.
  replace (/ 1125899906842624 * (Rabs c * / e) * (y * e)) with (/ 1125899906842624 * (Rabs c * y)) by (field; lra). lra.
Qed.
Definition cofd (d : dec) : tm := let f := float_of_dec d in if decok d f then rcst f else tbad.

(* ---- powers ---- *)
Definition pw := list (Z * tm).
Fixpoint look (n : Z) (l : pw) : tm :=
  match l with [] => tbad | (m, t) :: l' => if Z.eqb m n then t else look n l' end.
(* from powers a and b the power a + b *)
Fixpoint chain (k : nat) (c : list (Z * Z)) (l : pw) : pw :=
  match c with [] => l | (a, b) :: c' => chain k c' (((a + b)%Z, tmul k (look a l) (look b l)) :: l) end.

(* ---- table sums, the rows grouped by their first exponent ---- *)
Definition gtab (A : Type) := list (Z * list (Z * A)).
Fixpoint grp {A : Type} (t : list (Z * Z * A)) : gtab A :=
  match t with
  | [] => []
  | (i, j, n) :: t' =>
      match grp t' with
      | (i', l) :: g => if Z.eqb i i' then (i, (j, n) :: l) :: g else (i, [(j, n)]) :: (i', l) :: g
      | [] => [(i, [(j, n)])]
      end
  end.
Definition tofl (t : list drow) : list (Z * Z * float) := map (fun e => (fst e, float_of_dec (snd e))) t.
Definition tfl (t : list drow) : gtab float := grp (tofl t).
Definition tok (t : list drow) : bool := forallb (fun e => decok (snd e) (float_of_dec (snd e))) t.
Definition isum (k : nat) (py : pw) (l : list (Z * float)) : tm :=
  tlin k (map (fun q => (snd q, look (fst q) py)) l).
Fixpoint gsum (k : nat) (px py : pw) (g : gtab float) (acc : tm) : tm :=
  match g with [] => acc | (i, l) :: g' => gsum k px py g' (tadd acc (if Z.eqb i 0 then isum k py l else tmul k (look i px) (isum k py l))) end.

(* the derivatives of a table *)
Definition zdec (z : Z) (d : dec) : dec := Dec (z * dm d) (de d).
Definition dxD (t : list drow) : list drow :=
  flat_map (fun e => let '(i, j, d) := e in if Z.eqb i 0 then [] else [((i - 1)%Z, j, zdec i d)]) t.
Definition dyD (t : list drow) : list drow :=
  flat_map (fun e => let '(i, j, d) := e in if Z.eqb j 0 then [] else [(i, (j - 1)%Z, zdec j d)]) t.
Lemma zdec_ok z d : R_of_dec (zdec z d) = IZR z * R_of_dec d.
Proof.
  unfold R_of_dec, zdec. cbn [dm de]. destruct (de d); rewrite ?mult_IZR; try ring.
  unfold Rdiv. ring.
Qed.
Lemma dxD_cons i j d t : dxD ((i, j, d) :: t) = (if Z.eqb i 0 then [] else [((i - 1)%Z, j, zdec i d)]) ++ dxD t.
Proof. reflexivity. Qed.
Lemma dyD_cons i j d t : dyD ((i, j, d) :: t) = (if Z.eqb j 0 then [] else [(i, (j - 1)%Z, zdec j d)]) ++ dyD t.
Proof. reflexivity. Qed.
Lemma dxD_ok t x y : P (map rrow (dxD t)) x y = Px (map rrow t) x y.
Proof.
  unfold P, Px. induction t as [|[[i j] d] t IH]; [reflexivity|]. rewrite dxD_cons, map_app. destruct (Z.eqb_spec i 0) as [->|Hi]; cbn [app map]; rewrite !tsum_cons, IH; unfold rrow; cbn [fst snd].
  - ring.
  - rewrite zdec_ok. ring.
Qed.
Lemma dyD_ok t x y : P (map rrow (dyD t)) x y = Py (map rrow t) x y.
Proof.
  unfold P, Py. induction t as [|[[i j] d] t IH]; [reflexivity|]. rewrite dyD_cons, map_app. destruct (Z.eqb_spec j 0) as [->|Hi]; cbn [app map]; rewrite !tsum_cons, IH; unfold rrow; cbn [fst snd].
  - ring.
  - rewrite zdec_ok. ring.
Qed.
Lemma dxx_ok t x y : P (map rrow (dxD (dxD t))) x y = Pxx (map rrow t) x y.
Proof.
  rewrite dxD_ok. unfold Px, Pxx. induction t as [|[[i j] d] t IH]; [reflexivity|]. rewrite dxD_cons, map_app. destruct (Z.eqb_spec i 0) as [->|Hi]; cbn [app map]; rewrite !tsum_cons, IH; unfold rrow; cbn [fst snd].
  - ring.
  - rewrite zdec_ok. replace (i - 1 - 1)%Z with (i - 2)%Z by lia. ring.
Qed.
Lemma dyy_ok t x y : P (map rrow (dyD (dyD t))) x y = Pyy (map rrow t) x y.
Proof.
  rewrite dyD_ok. unfold Py, Pyy. induction t as [|[[i j] d] t IH]; [reflexivity|]. rewrite dyD_cons, map_app. destruct (Z.eqb_spec j 0) as [->|Hi]; cbn [app map]; rewrite !tsum_cons, IH; unfold rrow; cbn [fst snd].
  - ring.
  - rewrite zdec_ok. replace (j - 1 - 1)%Z with (j - 2)%Z by lia. ring.
Qed.
Lemma dxy_ok t x y : P (map rrow (dyD (dxD t))) x y = Pxy (map rrow t) x y.
Proof.
  rewrite dyD_ok. unfold Py, Pxy. induction t as [|[[i j] d] t IH]; [reflexivity|]. rewrite dxD_cons, map_app. destruct (Z.eqb_spec i 0) as [->|Hi]; cbn [app map]; rewrite !tsum_cons, IH; unfold rrow; cbn [fst snd].
  - ring.
  - rewrite zdec_ok. ring.
Qed.

Section Sem.
Variables u v : R.
Hypothesis Hu : Rabs u <= 1.
Hypothesis Hv : Rabs v <= 1.
Notation ok := (ok u v).
Lemma ok_cofd d : ok (cofd d) (R_of_dec d).
Proof. unfold cofd. cbv zeta. destruct (decok _ _) eqn:E; [|apply ok_bad]. apply ok_rcst. apply decok_ok. exact E. Qed.

Definition pwok (x : R) (l : pw) : Prop := Forall (fun e => ok (snd e) (powerRZ x (fst e))) l.
Lemma look_ok x n l : pwok x l -> ok (look n l) (powerRZ x n).
Proof.
  induction 1 as [|[m t] l H1 H2 IH]; cbn [look]; [apply ok_bad|]. destruct (Z.eqb_spec m n) as [<-|]; [exact H1|exact IH].
Qed.
Lemma chain_ok k x c : x <> 0 -> forall l, pwok x l -> pwok x (chain k c l).
Proof.
  intros Hx. induction c as [|[a b] c IH]; intros l H; cbn [chain]; [exact H|]. apply IH. constructor; [|exact H].
  cbn [fst snd]. rewrite powerRZ_add by exact Hx. apply (ok_mul u v Hu Hv); apply look_ok; exact H.
Qed.
Definition chn (c : list (Z * Z)) : bool := forallb (fun q => (0 <=? fst q)%Z && (0 <=? snd q)%Z) c.
Lemma powerRZ_nn x a b : (0 <= a)%Z -> (0 <= b)%Z -> powerRZ x (a + b) = powerRZ x a * powerRZ x b.
Proof.
  intros Ha Hb. rewrite <- (Z2Nat.id a Ha), <- (Z2Nat.id b Hb), <- Nat2Z.inj_add, <- !pow_powerRZ. apply pow_add.
Qed.
Lemma chain_nn k x c : chn c = true -> forall l, pwok x l -> pwok x (chain k c l).
Proof.
  induction c as [|[a b] c IH]; intros Hc l H; cbn [chain]; [exact H|]. cbn [chn forallb fst snd] in Hc.
  apply andb_true_iff in Hc as [Hc1 Hc2]. apply andb_true_iff in Hc1 as [Ha Hb]. apply Z.leb_le in Ha, Hb. apply (IH Hc2). constructor; [|exact H].
  cbn [fst snd]. rewrite powerRZ_nn by assumption. apply (ok_mul u v Hu Hv); apply look_ok; exact H.
Qed.
Lemma pwok_base x X : ok X x -> pwok x [(1%Z, X); (0%Z, cst 1%float)].
Proof.
  intros H. constructor; [|constructor; [|constructor]]; cbn [fst snd].
  - rewrite powerRZ_1. exact H.
  - pose proof (ok_cst u v 1%float) as O. rewrite (proj2 one_val) in O. exact O.
Qed.
Lemma pwok_inv x I l : ok I (/ x) -> pwok x l -> pwok x ((-1, I)%Z :: l).
Proof. intros H1 H2. constructor; [|exact H2]. cbn [fst snd]. change (powerRZ x (-1)) with (/ (x ^ 1)). rewrite pow_1. exact H1. Qed.

(* the numbers a grouped table stands for *)
Definition gP (g : gtab R) (x y : R) : R :=
  fold_right (fun e s => powerRZ x (fst e) * fold_right (fun q s => snd q * powerRZ y (fst q) + s) 0 (snd e) + s) 0 g.
Lemma grp_P t x y : P t x y = gP (grp t) x y.
Proof.
  unfold P. induction t as [|[[i j] n] t IH]; [reflexivity|]. rewrite tsum_cons, IH. cbn [grp fst snd].
  destruct (grp t) as [|[i' l] g]; [cbn; ring|]. destruct (Z.eqb_spec i i') as [<-|]; cbn [gP fold_right fst snd]; ring.
Qed.
Definition gmap {A B : Type} (f : A -> B) (g : gtab A) : gtab B := map (fun e => (fst e, map (fun q => (fst q, f (snd q))) (snd e))) g.
Lemma grp_map {A B : Type} (f : A -> B) t : grp (map (fun e : Z * Z * A => (fst e, f (snd e))) t) = gmap f (grp t).
Proof.
  induction t as [|[[i j] n] t IH]; [reflexivity|]. cbn [map grp fst snd]. rewrite IH. destruct (grp t) as [|[i' l] g]; [reflexivity|].
  cbn [gmap map fst snd]. destruct (Z.eqb i i'); reflexivity.
Qed.
Lemma grp_forall {A : Type} (Q : A -> Prop) t : Forall (fun e => Q (snd e)) t -> Forall (fun e => Forall (fun q => Q (snd q)) (snd e)) (grp t).
Proof.
  induction 1 as [|[[i j] n] t H1 H2 IH]; [constructor|]. cbn [grp]. destruct (grp t) as [|[i' l] g].
  - repeat constructor; assumption.
  - inversion IH; subst. destruct (Z.eqb i i'); repeat constructor; assumption.
Qed.
Lemma isum_ok k y py l : pwok y py -> Forall (fun q => decok (snd q) (float_of_dec (snd q)) = true) l ->
  ok (isum k py (map (fun q => (fst q, float_of_dec (snd q))) l))
     (fold_right (fun q s => R_of_dec (snd q) * powerRZ y (fst q) + s) 0 l).
Proof.
  intros Hp Hl. unfold isum. rewrite map_map. cbn [fst snd].
  replace (fold_right (fun q s => R_of_dec (snd q) * powerRZ y (fst q) + s) 0 l)
    with (lval (map (fun q : Z * dec => (R_of_dec (snd q), powerRZ y (fst q))) l)).
  - apply (ok_lin u v Hu Hv). induction Hl as [|[j d] l H1 H2 IH]; [constructor|]. cbn [map fst snd]. constructor; [|exact IH].
    split; cbn [fst snd]; [apply look_ok; exact Hp|apply decok_ok; exact H1].
  - unfold lval. clear. induction l as [|q l IH]; [reflexivity|]. cbn [map fold_right fst snd]. rewrite IH. reflexivity.
Qed.
Lemma ok_nil : ok (TM [] 0%float) 0.
Proof. split; [apply wf_TM|]. intros _ _. cbn [te tc TM]. change (L2 u v []) with 0. rewrite Rminus_0_r, Rabs_R0, zero_val. lra. Qed.
Lemma gsum_ok k x y px py g : pwok x px -> pwok y py ->
  Forall (fun e : Z * list (Z * dec) => Forall (fun q => decok (snd q) (float_of_dec (snd q)) = true) (snd e)) g -> forall acc a, ok acc a ->
  ok (gsum k px py (gmap float_of_dec g) acc) (a + gP (gmap R_of_dec g) x y).
Proof.
  intros Hx Hy. induction 1 as [|[i l] g H1 H2 IH]; intros acc a Ha; cbn [gsum gmap map gP fold_right fst snd] in *.
  { rewrite Rplus_0_r. exact Ha. }
  rewrite <- Rplus_assoc. apply IH. apply (ok_add u v Hu Hv); [exact Ha|].
  pose proof (isum_ok k y py l Hy H1) as Q.
  replace (fold_right (fun q s => snd q * powerRZ y (fst q) + s) 0 (map (fun q => (fst q, R_of_dec (snd q))) l))
    with (fold_right (fun (q : Z * dec) s => R_of_dec (snd q) * powerRZ y (fst q) + s) 0 l).
  { destruct (Z.eqb_spec i 0) as [->|]; [rewrite powerRZ_O, Rmult_1_l; exact Q|].
    apply (ok_mul u v Hu Hv); [apply look_ok; exact Hx|exact Q]. }
  clear. induction l as [|q l IH]; [reflexivity|]. cbn [map fold_right fst snd]. rewrite IH. reflexivity.
Qed.
Lemma psum_ok k x y px py t : tok t = true -> pwok x px -> pwok y py ->
  ok (gsum k px py (tfl t) (TM [] 0%float)) (P (map rrow t) x y).
Proof.
  intros Ht Hx Hy. unfold tfl, tofl. rewrite grp_map, grp_P. unfold rrow. rewrite (grp_map R_of_dec).
  rewrite <- (Rplus_0_l (gP _ x y)). apply gsum_ok; [exact Hx|exact Hy| |apply ok_nil].
  apply (grp_forall (fun d => decok d (float_of_dec d) = true)). apply Forall_forall. intros e He.
  unfold tok in Ht. rewrite forallb_forall in Ht. exact (Ht e He).
Qed.
End Sem.

(* ---- covers ---- *)
Inductive tree := Lf | Out | Sx (m : float) (a b : tree) | Sy (m : float) (a b : tree).
Section Cover.
Variables leaf out : float -> float -> float -> float -> bool.
Fixpoint check (t : tree) (x0 x1 y0 y1 : float) : bool :=
  match t with
  | Lf => leaf x0 x1 y0 y1
  | Out => out x0 x1 y0 y1
  | Sx m a b => check a x0 m y0 y1 && check b m x1 y0 y1
  | Sy m a b => check a x0 x1 y0 m && check b x0 x1 m y1
  end.
Lemma check_ok (Q : R -> R -> Prop) :
  (forall x0 x1 y0 y1 x y, leaf x0 x1 y0 y1 = true -> val x0 <= x <= val x1 -> val y0 <= y <= val y1 -> Q x y) ->
  (forall x0 x1 y0 y1 x y, out x0 x1 y0 y1 = true -> val x0 <= x <= val x1 -> val y0 <= y <= val y1 -> Q x y) ->
  forall t x0 x1 y0 y1 x y, check t x0 x1 y0 y1 = true -> val x0 <= x <= val x1 -> val y0 <= y <= val y1 -> Q x y.
Proof.
  intros HL HO. induction t as [| |m a IHa b IHb|m a IHa b IHb]; intros x0 x1 y0 y1 x y H Hx Hy; cbn [check] in H.
  - eapply HL; eassumption.
  - eapply HO; eassumption.
  - apply andb_true_iff in H as [H1 H2]. destruct (Rle_or_lt x (val m)); [eapply IHa|eapply IHb]; try eassumption; lra.
  - apply andb_true_iff in H as [H1 H2]. destruct (Rle_or_lt y (val m)); [eapply IHa|eapply IHb]; try eassumption; lra.
Qed.
End Cover.

(* a box with x0 < x1 and y0 < y1, all finite *)
Definition between (a b : float) : bool :=
  PrimFloat.leb (- 0x1p1000)%float a && PrimFloat.ltb a b && PrimFloat.leb b 0x1p1000%float.
Lemma between_ok a b : between a b = true -> fin a /\ fin b /\ val a < val b.
Proof.
  intros H. apply andb_true_iff in H as [H H3]. apply andb_true_iff in H as [H1 H2].
  assert (Fp : fin 0x1p1000%float) by (eapply fin_SF; vm_compute; reflexivity).
  assert (Fm : fin (- 0x1p1000)%float) by (eapply fin_SF; vm_compute; reflexivity).
  assert (L : PrimFloat.leb a b = true).
  { clear -H2. rewrite ltb_equiv in H2. rewrite leb_equiv. unfold Bleb, Bltb, SFleb, SFltb in *. destruct (SFcompare _ _) as [[]|]; try discriminate; reflexivity. }
  assert (La : PrimFloat.leb a 0x1p1000%float = true) by (eapply leb_trans; eassumption).
  assert (Lb : PrimFloat.leb (- 0x1p1000)%float b = true) by (eapply leb_trans; eassumption).
  assert (Fa : fin a) by (eapply fin_between; [exact Fm|exact Fp|exact H1|exact La]).
  assert (Fb : fin b) by (eapply fin_between; [exact Fm|exact Fp|exact Lb|exact H3]).
  split; [exact Fa|]. split; [exact Fb|]. apply ltb_inv; assumption.
Qed.
