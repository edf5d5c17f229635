(* Which values the region searches can return, for every arithmetic. *)
From Coq Require Import ZArith List Bool Lia.
From Verif Require Import Num Constant Region.
Import ListNotations.

Lemma if_both {A : Type} (P : A -> Prop) (c : bool) (a b : A) : P a -> P b -> P (if c then a else b).
Proof. destruct c; auto. Qed.

Lemma let_any {A B : Type} (P : B -> Prop) (v : A) (F : A -> B) :
  (forall k, P (F k)) -> P (let k := v in F k).
Proof. intro H; exact (H v). Qed.
Lemma let_such {A B : Type} (P : B -> Prop) (Q : A -> Prop) (v : A) (F : A -> B) :
  Q v -> (forall k, Q k -> P (F k)) -> P (let k := v in F k).
Proof. intros Hv H; exact (H v Hv). Qed.

(* walk through if/let chains without expanding the shared continuations *)
Ltac sweep :=
  lazymatch goal with
  | |- ?P (if _ then _ else _) => apply if_both; sweep
  | |- ?P (let k := ?v in @?B k) =>
      lazymatch type of v with
      | unit -> _ => refine (let_such P (fun k => forall u, P (k u)) v B _ _)
      | _ -> _ -> _ -> _ -> _ -> _ => refine (let_such P (fun k => forall a b c d e, P (k a b c d e)) v B _ _)
      | _ -> _ -> _ -> _ -> _ => refine (let_such P (fun k => forall a b c d, P (k a b c d)) v B _ _)
      | _ -> _ -> _ => refine (let_such P (fun k => forall a b, P (k a b)) v B _ _)
      | _ => refine (let_any P v B _)
      end; intros; cbv beta in *; sweep
  | |- ?P (match ?x with (_, _) => _ end) => destruct x; sweep
  | |- _ => first [ assumption | match goal with H : forall _, _ |- _ => apply H end | idtac ]
  end.

Section Codes.
Context {N : Arith}.
Variable P : Z -> Prop.
Hypotheses (H1 : P 1%Z) (H2 : P 2%Z) (H3 : P 3%Z) (H4 : P 4%Z) (H5 : P 5%Z) (HV : P INVALID_VALUE).

Lemma pT_sub_region_codes p T : P INVALID_P -> P INVALID_T -> P (pT_sub_region p T).
Proof. intros HP HT; cbv beta delta [pT_sub_region]; sweep. Qed.
Lemma ph_sub_region_codes p h : P (ph_sub_region p h).
Proof. cbv beta delta [ph_sub_region]; sweep. Qed.
Lemma ps_sub_region_codes p s : P (ps_sub_region p s).
Proof. cbv beta delta [ps_sub_region]; sweep. Qed.
Lemma hs_sub_region_codes h s : P (hs_sub_region h s).
Proof. cbv beta delta [hs_sub_region]. Time sweep. Qed.
Lemma pv_sub_region_codes p v : P (pv_sub_region p v).
Proof. cbv beta delta [pv_sub_region]; sweep. Qed.
Lemma tv_sub_region_codes t v : P (tv_sub_region t v).
Proof. cbv beta delta [tv_sub_region]; sweep. Qed.
Lemma ts_sub_region_codes t s : P INVALID_T -> P INVALID_S -> P (ts_sub_region t s).
Proof. intros HT HS; cbv beta delta [ts_sub_region]; sweep. Qed.

Lemma th_sub_region_codes fuel t h r : th_sub_region fuel t h = Some r -> P r.
Proof.
  intros H.
  enough (Q : forall r', th_sub_region fuel t h = Some r' -> P r') by eauto.
  clear H r.
  set (Q := fun o : option Z => forall r', o = Some r' -> P r').
  assert (QN : Q None) by (intros r' E; discriminate E).
  assert (QS : forall c, P c -> Q (Some c)) by (intros c Hc r' E; injection E as <-; exact Hc).
  change (Q (th_sub_region fuel t h)).
  cbv beta delta [th_sub_region].
  sweep; auto.
  destruct (th_Hmin fuel _ _ _); sweep; auto.
Qed.
End Codes.
