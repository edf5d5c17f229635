(* Vocabulary for the region maps of ph and ps: on an isobar, the highest temperature of the
   liquid and the lowest temperature of the vapour, in kelvin. *)
From Coq Require Import Reals.
From Verif Require Import Spec SpecReal SpecSub3 SpecSteam.
Open Scope R_scope.

(* the library's saturation pressure at 623.15 K, the corner of regions 1 to 4 *)
Definition p_corner : R := 16.5291642526045.
Definition hottest_liquid (p : R) : R := if Rle_dec p p_corner then if97_tsat p else 623.15.
Definition coldest_vapour (p : R) : R := if Rle_dec p p_corner then if97_tsat p else if97_b23T p.
