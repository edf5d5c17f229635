(* The arithmetic interface of the model.

   Every function of /repo/src is modelled over an abstract arithmetic [Arith]
   whose operations are exactly the f64 operations the sources use:
   + - * / unary-, abs, sqrt, powi, powf, exp, ln, <, <=, ==, decimal literals and
   [i32 as f64].  Instances: binary64 floats (FloatInst.v), reals (RealInst.v). *)
From Coq Require Import ZArith List Bool.
From Coq Require Import Number Decimal.

(* A decimal literal of the source, exactly: dm * 10^de.  Source: every f64
   literal of /repo/src is written in this notation, digits unchanged. *)
Record dec := Dec { dm : Z; de : Z }.

Declare Scope dec_scope.
Delimit Scope dec_scope with dec.
Bind Scope dec_scope with dec.

Fixpoint uint_len (u : Decimal.uint) : nat :=
  match u with
  | Decimal.Nil => 0
  | Decimal.D0 v | Decimal.D1 v | Decimal.D2 v | Decimal.D3 v | Decimal.D4 v
  | Decimal.D5 v | Decimal.D6 v | Decimal.D7 v | Decimal.D8 v | Decimal.D9 v => S (uint_len v)
  end.

Definition app_frac (i : Decimal.signed_int) (f : Decimal.uint) : Z :=
  match i with
  | Decimal.Pos u => Z.of_int (Decimal.Pos (Decimal.app u f))
  | Decimal.Neg u => Z.of_int (Decimal.Neg (Decimal.app u f))
  end.

Definition dec_of_number (n : Number.number) : option dec :=
  match n with
  | Number.Decimal (Decimal.Decimal i f) =>
      Some (Dec (app_frac i f) (- Z.of_nat (uint_len f)))
  | Number.Decimal (Decimal.DecimalExp i f e) =>
      Some (Dec (app_frac i f) (Z.of_int e - Z.of_nat (uint_len f)))
  | Number.Hexadecimal _ => None
  end.

Definition number_of_dec (d : dec) : option Number.number :=
  Some (Number.Decimal (Decimal.DecimalExp (Z.to_int (dm d)) Decimal.Nil (Z.to_int (de d)))).

Number Notation dec dec_of_number number_of_dec : dec_scope.

(* The arithmetic operations used by the library. *)
Class Arith := {
  num : Type;
  add : num -> num -> num;       (* a + b *)
  sub : num -> num -> num;       (* a - b *)
  mul : num -> num -> num;       (* a * b *)
  div : num -> num -> num;       (* a / b *)
  opp : num -> num;              (* -a *)
  nabs : num -> num;             (* a.abs() *)
  nsqrt : num -> num;            (* a.sqrt() *)
  powi : num -> Z -> num;        (* a.powi(i) *)
  powf : num -> num -> num;      (* a.powf(b) *)
  nexp : num -> num;             (* a.exp() *)
  nln : num -> num;              (* a.ln() *)
  ltb : num -> num -> bool;      (* a < b *)
  leb : num -> num -> bool;      (* a <= b *)
  eqb : num -> num -> bool;      (* a == b *)
  lit : dec -> num;              (* a decimal literal *)
  ofZ : Z -> num                 (* (i : i32) as f64 *)
}.

Declare Scope num_scope.
Delimit Scope num_scope with num.
Bind Scope num_scope with num.

Notation "# x" := (lit x%dec) (at level 1, x at level 0, format "# x") : num_scope.
Infix "+" := add : num_scope.
Infix "-" := sub : num_scope.
Infix "*" := mul : num_scope.
Infix "/" := div : num_scope.
Notation "- x" := (opp x) : num_scope.
Notation "x <? y" := (ltb x y) : num_scope.
Notation "x <=? y" := (leb x y) : num_scope.
Notation "x =? y" := (eqb x y) : num_scope.
(* Rust: a > b is b < a, a >= b is b <= a, a != b is !(a == b); true for IEEE
   comparisons too, NaN included. *)
Notation "x >? y" := (ltb y x) (at level 70, no associativity, only parsing) : num_scope.
Notation "x >=? y" := (leb y x) (at level 70, no associativity, only parsing) : num_scope.
Notation "x !=? y" := (negb (eqb x y)) (at level 70, no associativity) : num_scope.
Arguments powi {_} _%num _%Z.
Arguments ofZ {_} _%Z.

(* [loop_pos n body s]: run [body] at most [n] times; [inr r] leaves the loop with
   result [r], [inl s] goes on with state [s].  Structural in the binary number
   [n], so a bound such as 1000000 costs nothing unless the loop really runs. *)
Fixpoint loop_pos {S R : Type} (n : positive) (body : S -> S + R) (s : S) : S + R :=
  match n with
  | xH => body s
  | xO m =>
      match loop_pos m body s with
      | inl s1 => loop_pos m body s1
      | inr r => inr r
      end
  | xI m =>
      match body s with
      | inl s0 =>
          match loop_pos m body s0 with
          | inl s1 => loop_pos m body s1
          | inr r => inr r
          end
      | inr r => inr r
      end
  end.
