(* Specification vocabulary: how the eight two-property functions are called, which
   ids are their inputs, which answers a region query may give.  Nothing here
   refers to the inside of the model. *)
From Coq Require Import ZArith List Bool.
From Verif Require Import Num Constant Api.
Import ListNotations.

(* the eight two-property functions of the public API *)
Inductive api2 := PT | PH | PS | HS | PV | TV | TH | TS.

(* [call fuel f a b args]: the public function [f] applied to its two inputs and
   its property/region argument.  Only hs, tv and th have loops without an
   iteration bound; for the other five the answer does not depend on [fuel]. *)
Definition call {N : Arith} (fuel : positive) (f : api2) (a b : num) (args : o_id_region_args)
  : option num :=
  match f with
  | PT => Some (pt a b args)
  | PH => Some (ph a b args)
  | PS => Some (ps a b args)
  | HS => hs fuel a b args
  | PV => Some (pv a b args)
  | TV => tv fuel a b args
  | TH => th fuel a b args
  | TS => Some (ts a b args)
  end.

(* the property ids of the first and second input *)
Definition id1 (f : api2) : Z :=
  match f with PT | PH | PS | PV => OP | HS => OH | TV | TH | TS => OT end.
Definition id2 (f : api2) : Z :=
  match f with PT => OT | PH | TH => OH | PS | HS | TS => OS | PV | TV => OV end.

(* an id that asks for one of the two inputs *)
Definition is_input (f : api2) (o : Z) : Prop := o = id1 f \/ o = id2 f.

(* what a region query may answer: a region number or a documented error code *)
Definition region_numbers : list Z := [1; 2; 3; 4; 5]%Z.
Definition error_codes (f : api2) : list Z :=
  match f with
  | PT => [-2100; -2101; -9999]
  | TS => [-2101; -2102; -9999]
  | _ => [-9999]
  end%Z.

(* an id outside the 36 documented ones *)
Definition unknown_id (o : Z) : Prop := (o < 0 \/ 35 < o)%Z.

(* all public property-id constants, in the order of the documentation *)
Definition all_ids : list Z :=
  [OP; OT; OD; OV; OH; OS; OE; OU; OCP; OCV; OW; OKS; OF; OG; OZ; OX; OR; OEC; OKT; ODVDT; ODVDP;
   ODPDT; OIJTC; OJTC; ODV; OKV; OTC; OTD; OPR; OST; OSDC; OPC; OBETAP; OFI; OFU; OALFAP].

(* The IAPWS-IF97 region of a state (p, T), given the saturation pressure [ps] and
   the B23 pressure [b23] at T; x <= y and x < y are the comparisons of the
   arithmetic. *)
Section Regions.
Open Scope num_scope.
Context {N : Arith}.
Definition le (x y : num) : Prop := (x <=? y) = true.
Definition lt (x y : num) : Prop := (x <? y) = true.
Inductive if97_region (ps b23 p T : num) : Z -> Prop :=
| if97_1  : le (#273.15) T -> le T (#623.15) -> le ps p -> if97_region ps b23 p T 1
| if97_2a : le (#273.15) T -> le T (#623.15) -> lt p ps -> if97_region ps b23 p T 2
| if97_2b : lt (#623.15) T -> le T (#863.15) -> le p b23 -> if97_region ps b23 p T 2
| if97_2c : lt (#863.15) T -> le T (#1073.15) -> if97_region ps b23 p T 2
| if97_3  : lt (#623.15) T -> le T (#863.15) -> lt b23 p -> if97_region ps b23 p T 3
| if97_5  : lt (#1073.15) T -> le T (#2273.15) -> le p (#50.0) -> if97_region ps b23 p T 5.
End Regions.
