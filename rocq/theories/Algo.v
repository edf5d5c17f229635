(* src/algo: polynomial sums (polynomial.rs, polynomial_steps.rs) and the secant
   solvers (root.rs). *)
From Coq Require Import ZArith List Bool.
From Verif Require Import Num.
Import ListNotations.
Open Scope num_scope.

Section Model.
Context {N : Arith}.

(* One row (i, j, n) of a coefficient table [(i32, i32, f64)]; fields .0 .1 .2 of
   the Rust tuples. *)
Definition row : Type := (Z * Z * num)%type.
Definition row_i (e : row) : Z := fst (fst e).
Definition row_j (e : row) : Z := snd (fst e).
Definition row_n (e : row) : num := snd e.

(* ---- src/algo/polynomial.rs ---- *)

(* src/algo/polynomial.rs:14-20 *)
Definition poly_powi (vi vj : num) (IJn : list row) : num :=
  fold_left (fun value e =>
    value + row_n e * powi vi (row_i e) * powi vj (row_j e)) IJn (#0.0).

(* src/algo/polynomial.rs:24-30 *)
Definition poly_i_powi (vi vj : num) (IJn : list row) : num :=
  fold_left (fun value e =>
    value + row_n e * ofZ (row_i e) * powi vi (row_i e - 1) * powi vj (row_j e)) IJn (#0.0).

(* src/algo/polynomial.rs:34-40 *)
Definition poly_ii_powi (vi vj : num) (IJn : list row) : num :=
  fold_left (fun value e =>
    value + row_n e * ofZ (row_i e * (row_i e - 1)) * powi vi (row_i e - 2) * powi vj (row_j e))
    IJn (#0.0).

(* src/algo/polynomial.rs:44-50 *)
Definition poly_j_powi (vi vj : num) (IJn : list row) : num :=
  fold_left (fun value e =>
    value + row_n e * powi vi (row_i e) * ofZ (row_j e) * powi vj (row_j e - 1)) IJn (#0.0).

(* src/algo/polynomial.rs:54-60 *)
Definition poly_jj_powi (vi vj : num) (IJn : list row) : num :=
  fold_left (fun value e =>
    value + row_n e * powi vi (row_i e) * ofZ (row_j e * (row_j e - 1)) * powi vj (row_j e - 2))
    IJn (#0.0).

(* src/algo/polynomial.rs:62-68 *)
Definition poly_ij_powi (vi vj : num) (IJn : list row) : num :=
  fold_left (fun value e =>
    value + row_n e * ofZ (row_i e) * powi vi (row_i e - 1) * ofZ (row_j e) * powi vj (row_j e - 1))
    IJn (#0.0).

(* src/algo/polynomial.rs:73-85  (the loop variable [item] is local to the body) *)
Definition polys_0_j_powi (vi vj : num) (IJn : list row) : num * num :=
  let '(poly_0, poly_j) :=
    fold_left (fun '(poly_0, poly_j) e =>
      let item := row_n e * powi vi (row_i e) * powi vj (row_j e) in
      (poly_0 + item, poly_j + ofZ (row_j e) * item)) IJn (#0.0, #0.0) in
  (poly_0, poly_j / vj).

(* src/algo/polynomial.rs:90-103 *)
Definition polys_i_j_powi (vi vj : num) (IJn : list row) : num * num :=
  let '(poly_i, poly_j) :=
    fold_left (fun '(poly_i, poly_j) e =>
      let item := row_n e * powi vi (row_i e) * powi vj (row_j e) in
      (poly_i + ofZ (row_i e) * item, poly_j + ofZ (row_j e) * item)) IJn (#0.0, #0.0) in
  (poly_i / vi, poly_j / vj).

(* src/algo/polynomial.rs:111-135 *)
Definition polys_i_ii_ij_jj_powi (vi vj : num) (IJn : list row) : num * num * num * num :=
  let '(poly_i, poly_ii, poly_ij, poly_jj) :=
    fold_left (fun '(poly_i, poly_ii, poly_ij, poly_jj) e =>
      let item := row_n e * powi vi (row_i e) * powi vj (row_j e) in
      let poly_jj := poly_jj + ofZ (row_j e * (row_j e - 1)) * item in
      let i_item := ofZ (row_i e) * item in
      (poly_i + i_item, poly_ii + ofZ (row_i e - 1) * i_item,
       poly_ij + ofZ (row_j e) * i_item, poly_jj)) IJn (#0.0, #0.0, #0.0, #0.0) in
  (poly_i / vi, poly_ii / (vi * vi), poly_ij / (vi * vj), poly_jj / (vj * vj)).

(* ---- src/algo/polynomial_steps.rs ---- *)

(* The index [IJn[k]]: Rust panics when k is out of range; every step list of the
   library is proved to be in range (Steps.v), so the default is never used. *)
Definition IJn_at (IJn : list row) (k : nat) : row := nth k IJn (0%Z, 0%Z, #0.0).

(* for m in 0..steps.len() { for k in steps[m].0..steps[m].1 { body } },
   the double loop shared by every function of polynomial_steps.rs, e.g. lines 16-17 *)
Definition for_steps {A : Type} (steps : list (nat * nat)) (body : A -> nat -> A) (init : A) : A :=
  fold_left (fun acc st => fold_left body (seq (fst st) (snd st - fst st)) acc) steps init.

(* src/algo/polynomial_steps.rs:13-22 *)
Definition poly_powi_steps (vi vj : num) (IJn : list row) (steps : list (nat * nat)) : num :=
  for_steps steps (fun value k => let e := IJn_at IJn k in
    value + row_n e * powi vi (row_i e) * powi vj (row_j e)) (#0.0).

(* src/algo/polynomial_steps.rs:24-33 *)
Definition poly_i_powi_steps (vi vj : num) (IJn : list row) (steps : list (nat * nat)) : num :=
  for_steps steps (fun value k => let e := IJn_at IJn k in
    value + row_n e * ofZ (row_i e) * powi vi (row_i e - 1) * powi vj (row_j e)) (#0.0).

(* src/algo/polynomial_steps.rs:35-44 *)
Definition poly_ii_powi_steps (vi vj : num) (IJn : list row) (steps : list (nat * nat)) : num :=
  for_steps steps (fun value k => let e := IJn_at IJn k in
    value + row_n e * ofZ (row_i e * (row_i e - 1)) * powi vi (row_i e - 2) * powi vj (row_j e))
    (#0.0).

(* src/algo/polynomial_steps.rs:46-55 *)
Definition poly_ij_powi_steps (vi vj : num) (IJn : list row) (steps : list (nat * nat)) : num :=
  let value := for_steps steps (fun value k => let e := IJn_at IJn k in
    value + row_n e * ofZ (row_i e) * powi vi (row_i e) * ofZ (row_j e) * powi vj (row_j e))
    (#0.0) in
  value / vi / vj.

(* src/algo/polynomial_steps.rs:57-66 *)
Definition poly_j_powi_steps (vi vj : num) (IJn : list row) (steps : list (nat * nat)) : num :=
  for_steps steps (fun value k => let e := IJn_at IJn k in
    value + row_n e * powi vi (row_i e) * ofZ (row_j e) * powi vj (row_j e - 1)) (#0.0).

(* src/algo/polynomial_steps.rs:70-79 *)
Definition poly_jj_powi_steps (vi vj : num) (IJn : list row) (steps : list (nat * nat)) : num :=
  for_steps steps (fun value k => let e := IJn_at IJn k in
    value + row_n e * powi vi (row_i e) * ofZ (row_j e * (row_j e - 1)) * powi vj (row_j e - 2))
    (#0.0).

(* src/algo/polynomial_steps.rs:86-101 *)
Definition polys_0_j_powi_steps (vi vj : num) (IJn : list row) (steps : list (nat * nat)) : num * num :=
  let '(poly_0, poly_j) :=
    for_steps steps (fun '(poly_0, poly_j) k => let e := IJn_at IJn k in
      let item := row_n e * powi vi (row_i e) * powi vj (row_j e) in
      (poly_0 + item, poly_j + ofZ (row_j e) * item)) (#0.0, #0.0) in
  (poly_0, poly_j / vj).

(* src/algo/polynomial_steps.rs:103-119 *)
Definition polys_i_j_powi_steps (vi vj : num) (IJn : list row) (steps : list (nat * nat)) : num * num :=
  let '(poly_i, poly_j) :=
    for_steps steps (fun '(poly_i, poly_j) k => let e := IJn_at IJn k in
      let item := row_n e * powi vi (row_i e) * powi vj (row_j e) in
      (poly_i + ofZ (row_i e) * item, poly_j + ofZ (row_j e) * item)) (#0.0, #0.0) in
  (poly_i / vi, poly_j / vj).

(* src/algo/polynomial_steps.rs:121-135 *)
Definition polys_i_ij_powi_steps (vi vj : num) (IJn : list row) (steps : list (nat * nat)) : num * num :=
  let '(poly_i, poly_ij) :=
    for_steps steps (fun '(poly_i, poly_ij) k => let e := IJn_at IJn k in
      let item := row_n e * ofZ (row_i e) * powi vi (row_i e - 1) * powi vj (row_j e) in
      (poly_i + item, poly_ij + ofZ (row_j e) * item)) (#0.0, #0.0) in
  (poly_i, poly_ij / vj).

(* src/algo/polynomial_steps.rs:137-152 *)
Definition polys_i_ii_powi_steps (vi vj : num) (IJn : list row) (steps : list (nat * nat)) : num * num :=
  let '(poly_i, poly_ii) :=
    for_steps steps (fun '(poly_i, poly_ii) k => let e := IJn_at IJn k in
      let item := row_n e * ofZ (row_i e) * powi vi (row_i e - 1) * powi vj (row_j e) in
      (poly_i + item, poly_ii + ofZ (row_i e - 1) * item)) (#0.0, #0.0) in
  (poly_i, poly_ii / vi).

(* src/algo/polynomial_steps.rs:154-181 *)
Definition polys_i_ii_ij_jj_powi_steps (vi vj : num) (IJn : list row) (steps : list (nat * nat))
  : num * num * num * num :=
  let '(poly_i, poly_ii, poly_ij, poly_jj) :=
    for_steps steps (fun '(poly_i, poly_ii, poly_ij, poly_jj) k => let e := IJn_at IJn k in
      let item := row_n e * powi vi (row_i e) * powi vj (row_j e) in
      let i_item := ofZ (row_i e) * item in
      (poly_i + i_item, poly_ii + ofZ (row_i e - 1) * i_item,
       poly_ij + ofZ (row_j e) * i_item, poly_jj + ofZ (row_j e * (row_j e - 1)) * item))
      (#0.0, #0.0, #0.0, #0.0) in
  (poly_i / vi, poly_ii / (vi * vi), poly_ij / (vi * vj), poly_jj / (vj * vj)).

(* ---- src/algo/root.rs ---- *)

(* src/algo/root.rs:6 *)
Definition ESP : num := #1.0E-08.
(* src/algo/root.rs:7 *)
Definition I_MAX : Z := 100.

(* The variables of the secant loop that live across iterations (root.rs:18-21,
   34): xl, rts, fl, f, dx, i. *)
Record sec_state := SecState {
  sec_xl : num; sec_rts : num; sec_fl : num; sec_f : num; sec_dx : num; sec_i : Z }.

(* src/algo/root.rs:38 and 82, the loop condition *)
Definition sec_cond (xacc : num) (i_max : Z) (st : sec_state) : bool :=
  (nabs (sec_dx st) >? xacc) && (Z.ltb (sec_i st) i_max) &&
  (sec_f st !=? #0.0) && ((sec_f st - sec_fl st) !=? #0.0).

(* src/algo/root.rs:23-32 and 67-76: which bound is the most recent guess *)
Definition sec_init (x1 x2 fl f : num) : sec_state :=
  if nabs fl <? nabs f then SecState x2 x1 f fl (#0.0) 0
  else SecState x1 x2 fl f (#0.0) 0.

(* src/algo/root.rs:37 and 81: the first increment *)
Definition sec_dx0 (st : sec_state) : sec_state :=
  SecState (sec_xl st) (sec_rts st) (sec_fl st) (sec_f st)
    ((sec_xl st - sec_rts st) * sec_f st / (sec_f st - sec_fl st)) (sec_i st).

(* src/algo/root.rs:39-49, one iteration of rtsec1 *)
Definition sec_step1 (fun_ : num -> num -> num) (con_var2 fr : num) (st : sec_state) : sec_state :=
  let dx := (sec_xl st - sec_rts st) * sec_f st / (sec_f st - sec_fl st) in
  let xl := sec_rts st in
  let fl := sec_f st in
  let rts := sec_rts st + dx in
  let rts := if rts <=? #0.0 then #0.000001 else rts in
  let f := fr - fun_ rts con_var2 in
  SecState xl rts fl f dx (sec_i st + 1).

(* src/algo/root.rs:85-91, one iteration of rtsec2 *)
Definition sec_step2 (fun_ : num -> num -> num) (con_var1 fr : num) (st : sec_state) : sec_state :=
  let dx := (sec_xl st - sec_rts st) * sec_f st / (sec_f st - sec_fl st) in
  let xl := sec_rts st in
  let fl := sec_f st in
  let rts := sec_rts st + dx in
  let f := fr - fun_ con_var1 rts in
  SecState xl rts fl f dx (sec_i st + 1).

(* the while loop of root.rs:38 / 82; the loop stops by itself after at most i_max
   iterations, [Z.to_pos (i_max + 1)] rounds are therefore enough (SecantProofs.v) *)
Definition sec_loop (step : sec_state -> sec_state) (xacc : num) (i_max : Z) (st : sec_state)
  : sec_state :=
  match loop_pos (Z.to_pos (i_max + 1))
          (fun s => if sec_cond xacc i_max s then inl (step s) else inr s) st with
  | inl s => s
  | inr s => s
  end.

(* src/algo/root.rs:15-52 *)
Definition rtsec1 (fun_ : num -> num -> num) (con_var2 fr x1 x2 fl f xacc : num) (i_max : Z) : num :=
  let st := sec_init x1 x2 fl f in
  if (sec_f st - sec_fl st) !=? #0.0 then
    sec_rts (sec_loop (sec_step1 fun_ con_var2 fr) xacc i_max (sec_dx0 st))
  else sec_rts st.

(* src/algo/root.rs:60-95 *)
Definition rtsec2 (fun_ : num -> num -> num) (con_var1 fr x1 x2 fl f xacc : num) (i_max : Z) : num :=
  let st := sec_init x1 x2 fl f in
  if (sec_f st - sec_fl st) !=? #0.0 then
    sec_rts (sec_loop (sec_step2 fun_ con_var1 fr) xacc i_max (sec_dx0 st))
  else sec_rts st.

End Model.
