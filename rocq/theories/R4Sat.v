(* Generated by tools/rs2v.py from src/r4/region4_sat_pT.rs.
   Every definition cites the source lines it models; see tools/rs2v.py for the
   translation rules (mutable variables become let-rebinding, match on constants
   becomes an if-chain in source order, for loops over ranges become fold_left). *)
From Coq Require Import ZArith List Bool String.
From Verif Require Import Num Constant.
Import ListNotations.
Open Scope num_scope.

Section Model.
Context {N : Arith}.

(* src/r4/region4_sat_pT.rs:9-20  n *)
Definition region4_sat_pT_n : list num :=
  [#0.11670521452767E+04;
     #(-0.72421316703206E+06);
     #(-0.17073846940092E+02);
     #0.12020824702470E+05;
     #(-0.32325550322333E+07);
     #0.14915108613530E+02;
     #(-0.48232657361591E+04);
     #0.40511340542057E+06;
     #(-0.23855557567849E+00);
     #0.65017534844798E+03].

(* src/r4/region4_sat_pT.rs:23-36 *)
Definition p_saturation (T : num) : num :=
  let ps := #0.0 in
  if (T <? #273.15) || (T >? T_MAX4) then
    ofZ INVALID_VALUE
  else let del := T + ((nth (8%nat) region4_sat_pT_n (#0.0)) / (T - (nth (9%nat) region4_sat_pT_n (#0.0)))) in
    let aco := (del * (del + (nth (0%nat) region4_sat_pT_n (#0.0)))) + (nth (1%nat) region4_sat_pT_n (#0.0)) in
    let bco := (del * (((nth (2%nat) region4_sat_pT_n (#0.0)) * del) + (nth (3%nat) region4_sat_pT_n (#0.0)))) + (nth (4%nat) region4_sat_pT_n (#0.0)) in
    let cco := (del * (((nth (5%nat) region4_sat_pT_n (#0.0)) * del) + (nth (6%nat) region4_sat_pT_n (#0.0)))) + (nth (7%nat) region4_sat_pT_n (#0.0)) in
    let a := (#2.0 * cco) / ((- bco) + (nsqrt ((bco * bco) - ((#4.0 * aco) * cco)))) in
    powi a (4%Z).

(* src/r4/region4_sat_pT.rs:39-54 *)
Definition T_saturation (p : num) : num :=
  let Ts := #0.0 in
  if (p <? #0.000611212677) || (p >? #22.064) then
    ofZ INVALID_VALUE
  else let bet := powf p (#0.25) in
    let eco := (bet * (bet + (nth (2%nat) region4_sat_pT_n (#0.0)))) + (nth (5%nat) region4_sat_pT_n (#0.0)) in
    let fco := (bet * (((nth (0%nat) region4_sat_pT_n (#0.0)) * bet) + (nth (3%nat) region4_sat_pT_n (#0.0)))) + (nth (6%nat) region4_sat_pT_n (#0.0)) in
    let gco := (bet * (((nth (1%nat) region4_sat_pT_n (#0.0)) * bet) + (nth (4%nat) region4_sat_pT_n (#0.0)))) + (nth (7%nat) region4_sat_pT_n (#0.0)) in
    let temp := (fco * fco) - ((#4.0 * eco) * gco) in
    let dco := (#2.0 * gco) / ((- fco) - (nsqrt temp)) in
    let temp := (((nth (9%nat) region4_sat_pT_n (#0.0)) + dco) * ((nth (9%nat) region4_sat_pT_n (#0.0)) + dco)) - (#4.0 * ((nth (8%nat) region4_sat_pT_n (#0.0)) + ((nth (9%nat) region4_sat_pT_n (#0.0)) * dco))) in
    #0.5 * (((nth (9%nat) region4_sat_pT_n (#0.0)) + dco) - (nsqrt temp)).

End Model.
