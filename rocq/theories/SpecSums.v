(* Specification of summation in steps: contiguous half-open index ranges, and the
   sum over a coefficient table written as a mathematical sum. *)
From Coq Require Import ZArith List Reals.
Import ListNotations.

(* [covers a steps n]: the ranges of [steps] follow each other without gap from a to n *)
Inductive covers : nat -> list (nat * nat) -> nat -> Prop :=
| covers_nil a : covers a [] a
| covers_cons a b l n : (a <= b)%nat -> covers b l n -> covers a ((a, b) :: l) n.

(* sum over the rows (i, j, n) of a table of n * f i j *)
Open Scope R_scope.
Fixpoint table_sum (t : list (Z * Z * R)) (f : Z -> Z -> R) : R :=
  match t with
  | [] => 0
  | (i, j, n) :: t' => n * f i j + table_sum t' f
  end.
