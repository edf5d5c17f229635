(* The public API, src/rust_if97.rs.

   [hs], [tv] and [th] go through loops without an iteration bound
   (hs2T_reg4, the bracket searches of region 2 and 5, the enthalpy-minimum search
   of th_sub_region); their models take [fuel], the number of rounds granted to
   each such loop, and return [None] when a loop has not finished. *)
From Coq Require Import ZArith List Bool.
From Verif Require Import Num Constant Region Reg1Back Reg2Back Reg3 Reg4 Reg5Back.
Open Scope num_scope.

(* src/rust_if97.rs:14-17 *)
Record o_id_region_args := mk_args { args_o_id : Z; args_region : Z }.

(* src/rust_if97.rs:19-26, Default *)
Definition default_args : o_id_region_args := mk_args 0 REGION_NONE.

(* src/rust_if97.rs:28-35, From<i32>: struct update syntax over the default *)
Definition from_i32 (o_id : Z) : o_id_region_args := mk_args o_id (args_region default_args).

(* src/rust_if97.rs:37-44, From<(i32, i32)> *)
Definition from_pair (a : Z * Z) : o_id_region_args := mk_args (fst a) (snd a).

(* src/rust_if97.rs:46-54, o_id_reg_info *)
Definition o_id_reg_info (args : o_id_region_args) : Z * Z := (args_o_id args, args_region args).

Section Model.
Context {N : Arith}.

(* lift a total function into the option form used where a loop may run on *)
Definition tot2 (f : num -> num -> Z -> num) : num -> num -> Z -> option num :=
  fun a b o => Some (f a b o).

(* src/common/propertry_pairs.rs:110-137 again, for callers whose region or
   property functions may not finish: same order of tests, [None] propagates. *)
Definition pair_properties_o (v1 v2 : num) (o_id : Z) (fr : num -> num -> option Z)
  (f1 f2 f3 f4 f5 : num -> num -> Z -> option num) (reg : Z) : option num :=
  match (if Z.eqb reg REGION_NONE then fr v1 v2 else Some reg) with
  | None => None
  | Some sub_region =>
      if Z.eqb o_id OR then Some (ofZ sub_region)
      else
      if Z.eqb o_id OX then
        if Z.eqb sub_region 1 then Some (#0.0)
        else if (Z.eqb sub_region 2) || (Z.eqb sub_region 3) || (Z.eqb sub_region 5) then Some (#1.0)
        else if Z.eqb sub_region 4 then f4 v1 v2 OX
        else Some (ofZ INVALID_VALUE)
      else
      if Z.eqb sub_region 1 then f1 v1 v2 o_id
      else if Z.eqb sub_region 2 then f2 v1 v2 o_id
      else if Z.eqb sub_region 3 then f3 v1 v2 o_id
      else if Z.eqb sub_region 4 then f4 v1 v2 o_id
      else if Z.eqb sub_region 5 then f5 v1 v2 o_id
      else Some (ofZ sub_region)
  end.

(* src/rust_if97.rs:72-83 *)
Definition pt (p t : num) (o_id_reg : o_id_region_args) : num :=
  let '(o_id, reg) := o_id_reg_info o_id_reg in
  let T := t + #273.15 in
  if Z.eqb o_id OP then p
  else if Z.eqb o_id OT then t
  else pair_properties p T o_id pT_sub_region pT_reg1 pT_reg2 pT_reg3 pT_reg4 pT_reg5 reg.

(* src/rust_if97.rs:101-111 *)
Definition ph (p h : num) (o_id_reg : o_id_region_args) : num :=
  let '(o_id, reg) := o_id_reg_info o_id_reg in
  if Z.eqb o_id OP then p
  else if Z.eqb o_id OH then h
  else pair_properties p h o_id ph_sub_region ph_reg1 ph_reg2 ph_reg3 ph_reg4 ph_reg5 reg.

(* src/rust_if97.rs:127-137 *)
Definition ps (p s : num) (o_id_reg : o_id_region_args) : num :=
  let '(o_id, reg) := o_id_reg_info o_id_reg in
  if Z.eqb o_id OP then p
  else if Z.eqb o_id OS then s
  else pair_properties p s o_id ps_sub_region ps_reg1 ps_reg2 ps_reg3 ps_reg4 ps_reg5 reg.

(* src/rust_if97.rs:155-165 *)
Definition hs (fuel : positive) (h s : num) (o_id_reg : o_id_region_args) : option num :=
  let '(o_id, reg) := o_id_reg_info o_id_reg in
  if Z.eqb o_id OH then Some h
  else if Z.eqb o_id OS then Some s
  else pair_properties_o h s o_id (fun a b => Some (hs_sub_region a b))
         (tot2 hs_reg1) (tot2 hs_reg2) (tot2 hs_reg3) (hs_reg4 fuel) (tot2 hs_reg5) reg.

(* src/rust_if97.rs:183-192 *)
Definition px (p x : num) (o_id : Z) : num :=
  if (p >? P_MAX4) || (p <? P_MIN4) || (x >? #1.0) || (x <? #0.0) then ofZ INVALID_VALUE
  else if Z.eqb o_id OP then p
  else if Z.eqb o_id OX then x
  else px_reg4 p x o_id.

(* src/rust_if97.rs:208-220 *)
Definition tx (t x : num) (o_id : Z) : num :=
  if Z.eqb o_id OT then t
  else if Z.eqb o_id OX then x
  else
    let T := t + #273.15 in
    if (T >? T_MAX4) || (T <? T_MIN4) || (x >? #1.0) || (x <? #0.0) then ofZ INVALID_VALUE
    else Tx_reg4 T x o_id.

(* src/rust_if97.rs:239-249 *)
Definition pv (p v : num) (o_id_reg : o_id_region_args) : num :=
  let '(o_id, reg) := o_id_reg_info o_id_reg in
  if Z.eqb o_id OP then p
  else if Z.eqb o_id OV then v
  else pair_properties p v o_id pv_sub_region pv_reg1 pv_reg2 pv_reg3 pv_reg4 pv_reg5 reg.

(* src/rust_if97.rs:266-276 *)
Definition tv (fuel : positive) (t v : num) (o_id_reg : o_id_region_args) : option num :=
  let '(o_id, reg) := o_id_reg_info o_id_reg in
  if Z.eqb o_id OT then Some t
  else if Z.eqb o_id OV then Some v
  else pair_properties_o t v o_id (fun a b => Some (tv_sub_region a b))
         (tot2 tv_reg1) (tv_reg2 fuel) (tot2 tv_reg3) (tot2 tv_reg4) (tv_reg5 fuel) reg.

(* src/rust_if97.rs:293-303 *)
Definition th (fuel : positive) (t h : num) (o_id_reg : o_id_region_args) : option num :=
  let '(o_id, reg) := o_id_reg_info o_id_reg in
  if Z.eqb o_id OT then Some t
  else if Z.eqb o_id OH then Some h
  else pair_properties_o t h o_id (th_sub_region fuel)
         (tot2 th_reg1) (th_reg2 fuel) (tot2 th_reg3) (tot2 th_reg4) (tot2 th_reg5) reg.

(* src/rust_if97.rs:320-330 *)
Definition ts (t s : num) (o_id_reg : o_id_region_args) : num :=
  let '(o_id, reg) := o_id_reg_info o_id_reg in
  if Z.eqb o_id OT then t
  else if Z.eqb o_id OS then s
  else pair_properties t s o_id ts_sub_region ts_reg1 ts_reg2 ts_reg3 ts_reg4 ts_reg5 reg.

(* src/rust_if97.rs:346-355 *)
Definition hx (h x : num) (o_id : Z) : num :=
  if (h >? H_MAX4) || (h <? H_MIN4) || (x >? #1.0) || (x <? #0.0) then ofZ INVALID_VALUE
  else if Z.eqb o_id OH then h
  else if Z.eqb o_id OX then x
  else hx_reg4 h x o_id.

(* src/rust_if97.rs:371-380 *)
Definition sx (s x : num) (o_id : Z) : num :=
  if (s >? S_MAX4) || (s <? S_MIN4) || (x >? #1.0) || (x <? #0.0) then ofZ INVALID_VALUE
  else if Z.eqb o_id OS then s
  else if Z.eqb o_id OX then x
  else sx_reg4 s x o_id.

End Model.
