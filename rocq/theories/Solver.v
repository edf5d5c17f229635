(* The secant solver meets its specification. *)
From Coq Require Import ZArith List Bool Reals Floats.
From Verif Require Import Num Algo LoopFacts SpecSolver.
Import ListNotations.

Section Any.
Context {N : Arith}.
Open Scope num_scope.

Lemma secant_spec (clip : num -> num -> Prop) g u fr x1 x2 f1 f2 xacc i_max :
  (forall st, clip (sec_rts st + sdx st) (g st)) ->
  exists evals, secant_end clip u fr x1 x2 f1 f2 xacc i_max evals (secant g u fr x1 x2 f1 f2 xacc i_max) /\
    forall u', (forall x, In x evals -> u' x = u x) ->
      secant g u' fr x1 x2 f1 f2 xacc i_max = secant g u fr x1 x2 f1 f2 xacc i_max.
Proof.
  intros HC. destruct (secant_exit clip g u fr x1 x2 f1 f2 xacc i_max HC) as (ev & front & xl & fxl & r & frr & E & H1 & H2 & H3 & H4).
  exists ev. rewrite E. split; [|exact H2]. split; [exact H1|]. exists front, xl, fxl, frr. split; [exact H3|exact H4].
Qed.

Lemma rtsec1_spec fn c fr x1 x2 f1 f2 xacc i_max :
  exists evals, secant_end positive_guess (fun x => fn x c) fr x1 x2 f1 f2 xacc i_max evals (rtsec1 fn c fr x1 x2 f1 f2 xacc i_max) /\
    forall fn', (forall x, In x evals -> fn' x c = fn x c) ->
      rtsec1 fn' c fr x1 x2 f1 f2 xacc i_max = rtsec1 fn c fr x1 x2 f1 f2 xacc i_max.
Proof.
  destruct (secant_spec positive_guess guess1 (fun x => fn x c) fr x1 x2 f1 f2 xacc i_max) as (ev & A & B).
  - intros st. unfold positive_guess, guess1. reflexivity.
  - exists ev. split; [exact A|]. intros fn' H. exact (B (fun x => fn' x c) H).
Qed.
Lemma rtsec2_spec fn c fr x1 x2 f1 f2 xacc i_max :
  exists evals, secant_end any_guess (fun x => fn c x) fr x1 x2 f1 f2 xacc i_max evals (rtsec2 fn c fr x1 x2 f1 f2 xacc i_max) /\
    forall fn', (forall x, In x evals -> fn' c x = fn c x) ->
      rtsec2 fn' c fr x1 x2 f1 f2 xacc i_max = rtsec2 fn c fr x1 x2 f1 f2 xacc i_max.
Proof.
  destruct (secant_spec any_guess guess2 (fun x => fn c x) fr x1 x2 f1 f2 xacc i_max) as (ev & A & B).
  - intros st. reflexivity.
  - exists ev. split; [exact A|]. intros fn' H. exact (B (fun x => fn' c x) H).
Qed.
End Any.

