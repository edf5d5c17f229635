(* The language bindings: src/cdecl_c_if97.rs, src/stdcall_c_if97.rs,
   src/python_if97.rs and the helpers of python/seuif97/__init__.py. *)
From Coq Require Import ZArith List Bool String.
From Verif Require Import Num Constant Region Reg1Back Reg2Back Reg3 Reg4 Reg5Back Api.
Import ListNotations.
Open Scope num_scope.

Section Model.
Context {N : Arith}.

(* ---- src/cdecl_c_if97.rs ---- *)

(* src/cdecl_c_if97.rs:13-21 *)
Definition c_pt (p t : num) (o_id : Z) : num :=
  let reg := REGION_NONE in
  let T := t + #273.15 in
  if Z.eqb o_id OP then p
  else if Z.eqb o_id OT then t
  else pair_properties p T o_id pT_sub_region pT_reg1 pT_reg2 pT_reg3 pT_reg4 pT_reg5 reg.

(* src/cdecl_c_if97.rs:25-32 *)
Definition c_ph (p h : num) (o_id : Z) : num :=
  let reg := REGION_NONE in
  if Z.eqb o_id OP then p
  else if Z.eqb o_id OH then h
  else pair_properties p h o_id ph_sub_region ph_reg1 ph_reg2 ph_reg3 ph_reg4 ph_reg5 reg.

(* src/cdecl_c_if97.rs:36-43 *)
Definition c_ps (p s : num) (o_id : Z) : num :=
  let reg := REGION_NONE in
  if Z.eqb o_id OP then p
  else if Z.eqb o_id OS then s
  else pair_properties p s o_id ps_sub_region ps_reg1 ps_reg2 ps_reg3 ps_reg4 ps_reg5 reg.

(* src/cdecl_c_if97.rs:47-54 *)
Definition c_hs (fuel : positive) (h s : num) (o_id : Z) : option num :=
  let reg := REGION_NONE in
  if Z.eqb o_id OH then Some h
  else if Z.eqb o_id OS then Some s
  else pair_properties_o h s o_id (fun a b => Some (hs_sub_region a b))
         (tot2 hs_reg1) (tot2 hs_reg2) (tot2 hs_reg3) (hs_reg4 fuel) (tot2 hs_reg5) reg.

(* src/cdecl_c_if97.rs:58-67 *)
Definition c_px (p x : num) (o_id : Z) : num :=
  if (p >? P_MAX4) || (p <? P_MIN4) || (x >? #1.0) || (x <? #0.0) then ofZ INVALID_VALUE
  else if Z.eqb o_id OP then p
  else if Z.eqb o_id OX then x
  else px_reg4 p x o_id.

(* src/cdecl_c_if97.rs:71-83 *)
Definition c_tx (t x : num) (o_id : Z) : num :=
  if Z.eqb o_id OT then t
  else if Z.eqb o_id OX then x
  else
    let T := t + #273.15 in
    if (T >? T_MAX4) || (T <? T_MIN4) || (x >? #1.0) || (x <? #0.0) then ofZ INVALID_VALUE
    else Tx_reg4 T x o_id.

(* src/cdecl_c_if97.rs:87-94 *)
Definition c_pv (p v : num) (o_id : Z) : num :=
  let reg := REGION_NONE in
  if Z.eqb o_id OP then p
  else if Z.eqb o_id OV then v
  else pair_properties p v o_id pv_sub_region pv_reg1 pv_reg2 pv_reg3 pv_reg4 pv_reg5 reg.

(* src/cdecl_c_if97.rs:98-105 *)
Definition c_tv (fuel : positive) (t v : num) (o_id : Z) : option num :=
  let reg := REGION_NONE in
  if Z.eqb o_id OT then Some t
  else if Z.eqb o_id OV then Some v
  else pair_properties_o t v o_id (fun a b => Some (tv_sub_region a b))
         (tot2 tv_reg1) (tv_reg2 fuel) (tot2 tv_reg3) (tot2 tv_reg4) (tv_reg5 fuel) reg.

(* src/cdecl_c_if97.rs:109-116 *)
Definition c_th (fuel : positive) (t h : num) (o_id : Z) : option num :=
  let reg := REGION_NONE in
  if Z.eqb o_id OT then Some t
  else if Z.eqb o_id OH then Some h
  else pair_properties_o t h o_id (th_sub_region fuel)
         (tot2 th_reg1) (th_reg2 fuel) (tot2 th_reg3) (tot2 th_reg4) (tot2 th_reg5) reg.

(* src/cdecl_c_if97.rs:120-127 *)
Definition c_ts (t s : num) (o_id : Z) : num :=
  let reg := REGION_NONE in
  if Z.eqb o_id OT then t
  else if Z.eqb o_id OS then s
  else pair_properties t s o_id ts_sub_region ts_reg1 ts_reg2 ts_reg3 ts_reg4 ts_reg5 reg.

(* src/cdecl_c_if97.rs:131-140 *)
Definition c_hx (h x : num) (o_id : Z) : num :=
  if (h >? H_MAX4) || (h <? H_MIN4) || (x >? #1.0) || (x <? #0.0) then ofZ INVALID_VALUE
  else if Z.eqb o_id OH then h
  else if Z.eqb o_id OX then x
  else hx_reg4 h x o_id.

(* src/cdecl_c_if97.rs:144-153 *)
Definition c_sx (s x : num) (o_id : Z) : num :=
  if (s >? S_MAX4) || (s <? S_MIN4) || (x >? #1.0) || (x <? #0.0) then ofZ INVALID_VALUE
  else if Z.eqb o_id OS then s
  else if Z.eqb o_id OX then x
  else sx_reg4 s x o_id.

(* ---- src/stdcall_c_if97.rs ---- *)

(* src/stdcall_c_if97.rs:13-21 *)
Definition std_pt (p t : num) (o_id : Z) : num :=
  let reg := REGION_NONE in
  let T := t + #273.15 in
  if Z.eqb o_id OP then p
  else if Z.eqb o_id OT then t
  else pair_properties p T o_id pT_sub_region pT_reg1 pT_reg2 pT_reg3 pT_reg4 pT_reg5 reg.

(* src/stdcall_c_if97.rs:25-32 *)
Definition std_ph (p h : num) (o_id : Z) : num :=
  let reg := REGION_NONE in
  if Z.eqb o_id OP then p
  else if Z.eqb o_id OH then h
  else pair_properties p h o_id ph_sub_region ph_reg1 ph_reg2 ph_reg3 ph_reg4 ph_reg5 reg.

(* src/stdcall_c_if97.rs:36-43 *)
Definition std_ps (p s : num) (o_id : Z) : num :=
  let reg := REGION_NONE in
  if Z.eqb o_id OP then p
  else if Z.eqb o_id OS then s
  else pair_properties p s o_id ps_sub_region ps_reg1 ps_reg2 ps_reg3 ps_reg4 ps_reg5 reg.

(* src/stdcall_c_if97.rs:47-54 *)
Definition std_hs (fuel : positive) (h s : num) (o_id : Z) : option num :=
  let reg := REGION_NONE in
  if Z.eqb o_id OH then Some h
  else if Z.eqb o_id OS then Some s
  else pair_properties_o h s o_id (fun a b => Some (hs_sub_region a b))
         (tot2 hs_reg1) (tot2 hs_reg2) (tot2 hs_reg3) (hs_reg4 fuel) (tot2 hs_reg5) reg.

(* src/stdcall_c_if97.rs:58-67 *)
Definition std_px (p x : num) (o_id : Z) : num :=
  if (p >? P_MAX4) || (p <? P_MIN4) || (x >? #1.0) || (x <? #0.0) then ofZ INVALID_VALUE
  else if Z.eqb o_id OP then p
  else if Z.eqb o_id OX then x
  else px_reg4 p x o_id.

(* src/stdcall_c_if97.rs:71-83 *)
Definition std_tx (t x : num) (o_id : Z) : num :=
  if Z.eqb o_id OT then t
  else if Z.eqb o_id OX then x
  else
    let T := t + #273.15 in
    if (T >? T_MAX4) || (T <? T_MIN4) || (x >? #1.0) || (x <? #0.0) then ofZ INVALID_VALUE
    else Tx_reg4 T x o_id.

(* src/stdcall_c_if97.rs:87-94 *)
Definition std_pv (p v : num) (o_id : Z) : num :=
  let reg := REGION_NONE in
  if Z.eqb o_id OP then p
  else if Z.eqb o_id OV then v
  else pair_properties p v o_id pv_sub_region pv_reg1 pv_reg2 pv_reg3 pv_reg4 pv_reg5 reg.

(* src/stdcall_c_if97.rs:98-105 *)
Definition std_tv (fuel : positive) (t v : num) (o_id : Z) : option num :=
  let reg := REGION_NONE in
  if Z.eqb o_id OT then Some t
  else if Z.eqb o_id OV then Some v
  else pair_properties_o t v o_id (fun a b => Some (tv_sub_region a b))
         (tot2 tv_reg1) (tv_reg2 fuel) (tot2 tv_reg3) (tot2 tv_reg4) (tv_reg5 fuel) reg.

(* src/stdcall_c_if97.rs:109-116 *)
Definition std_th (fuel : positive) (t h : num) (o_id : Z) : option num :=
  let reg := REGION_NONE in
  if Z.eqb o_id OT then Some t
  else if Z.eqb o_id OH then Some h
  else pair_properties_o t h o_id (th_sub_region fuel)
         (tot2 th_reg1) (th_reg2 fuel) (tot2 th_reg3) (tot2 th_reg4) (tot2 th_reg5) reg.

(* src/stdcall_c_if97.rs:120-127 *)
Definition std_ts (t s : num) (o_id : Z) : num :=
  let reg := REGION_NONE in
  if Z.eqb o_id OT then t
  else if Z.eqb o_id OS then s
  else pair_properties t s o_id ts_sub_region ts_reg1 ts_reg2 ts_reg3 ts_reg4 ts_reg5 reg.

(* src/stdcall_c_if97.rs:131-140 *)
Definition std_hx (h x : num) (o_id : Z) : num :=
  if (h >? H_MAX4) || (h <? H_MIN4) || (x >? #1.0) || (x <? #0.0) then ofZ INVALID_VALUE
  else if Z.eqb o_id OH then h
  else if Z.eqb o_id OX then x
  else hx_reg4 h x o_id.

(* src/stdcall_c_if97.rs:144-153 *)
Definition std_sx (s x : num) (o_id : Z) : num :=
  if (s >? S_MAX4) || (s <? S_MIN4) || (x >? #1.0) || (x <? #0.0) then ofZ INVALID_VALUE
  else if Z.eqb o_id OS then s
  else if Z.eqb o_id OX then x
  else sx_reg4 s x o_id.

(* ---- src/python_if97.rs ---- *)

(* src/python_if97.rs:14-22 *)
Definition py_pt (p t : num) (o_id : Z) : num :=
  let reg := REGION_NONE in
  let T := t + #273.15 in
  if Z.eqb o_id OP then p
  else if Z.eqb o_id OT then t
  else pair_properties p T o_id pT_sub_region pT_reg1 pT_reg2 pT_reg3 pT_reg4 pT_reg5 reg.

(* src/python_if97.rs:25-32 *)
Definition py_ph (p h : num) (o_id : Z) : num :=
  let reg := REGION_NONE in
  if Z.eqb o_id OP then p
  else if Z.eqb o_id OH then h
  else pair_properties p h o_id ph_sub_region ph_reg1 ph_reg2 ph_reg3 ph_reg4 ph_reg5 reg.

(* src/python_if97.rs:35-42 *)
Definition py_ps (p s : num) (o_id : Z) : num :=
  let reg := REGION_NONE in
  if Z.eqb o_id OP then p
  else if Z.eqb o_id OS then s
  else pair_properties p s o_id ps_sub_region ps_reg1 ps_reg2 ps_reg3 ps_reg4 ps_reg5 reg.

(* src/python_if97.rs:45-52 *)
Definition py_hs (fuel : positive) (h s : num) (o_id : Z) : option num :=
  let reg := REGION_NONE in
  if Z.eqb o_id OH then Some h
  else if Z.eqb o_id OS then Some s
  else pair_properties_o h s o_id (fun a b => Some (hs_sub_region a b))
         (tot2 hs_reg1) (tot2 hs_reg2) (tot2 hs_reg3) (hs_reg4 fuel) (tot2 hs_reg5) reg.

(* src/python_if97.rs:55-64 *)
Definition py_px (p x : num) (o_id : Z) : num :=
  if (p >? P_MAX4) || (p <? P_MIN4) || (x >? #1.0) || (x <? #0.0) then ofZ INVALID_VALUE
  else if Z.eqb o_id OP then p
  else if Z.eqb o_id OX then x
  else px_reg4 p x o_id.

(* src/python_if97.rs:67-79 *)
Definition py_tx (t x : num) (o_id : Z) : num :=
  if Z.eqb o_id OT then t
  else if Z.eqb o_id OX then x
  else
    let T := t + #273.15 in
    if (T >? T_MAX4) || (T <? T_MIN4) || (x >? #1.0) || (x <? #0.0) then ofZ INVALID_VALUE
    else Tx_reg4 T x o_id.

(* src/python_if97.rs:82-89 *)
Definition py_pv (p v : num) (o_id : Z) : num :=
  let reg := REGION_NONE in
  if Z.eqb o_id OP then p
  else if Z.eqb o_id OV then v
  else pair_properties p v o_id pv_sub_region pv_reg1 pv_reg2 pv_reg3 pv_reg4 pv_reg5 reg.

(* src/python_if97.rs:92-99 *)
Definition py_tv (fuel : positive) (t v : num) (o_id : Z) : option num :=
  let reg := REGION_NONE in
  if Z.eqb o_id OT then Some t
  else if Z.eqb o_id OV then Some v
  else pair_properties_o t v o_id (fun a b => Some (tv_sub_region a b))
         (tot2 tv_reg1) (tv_reg2 fuel) (tot2 tv_reg3) (tot2 tv_reg4) (tv_reg5 fuel) reg.

(* src/python_if97.rs:102-109 *)
Definition py_th (fuel : positive) (t h : num) (o_id : Z) : option num :=
  let reg := REGION_NONE in
  if Z.eqb o_id OT then Some t
  else if Z.eqb o_id OH then Some h
  else pair_properties_o t h o_id (th_sub_region fuel)
         (tot2 th_reg1) (th_reg2 fuel) (tot2 th_reg3) (tot2 th_reg4) (tot2 th_reg5) reg.

(* src/python_if97.rs:112-119 *)
Definition py_ts (t s : num) (o_id : Z) : num :=
  let reg := REGION_NONE in
  if Z.eqb o_id OT then t
  else if Z.eqb o_id OS then s
  else pair_properties t s o_id ts_sub_region ts_reg1 ts_reg2 ts_reg3 ts_reg4 ts_reg5 reg.

(* src/python_if97.rs:122-131 *)
Definition py_hx (h x : num) (o_id : Z) : num :=
  if (h >? H_MAX4) || (h <? H_MIN4) || (x >? #1.0) || (x <? #0.0) then ofZ INVALID_VALUE
  else if Z.eqb o_id OH then h
  else if Z.eqb o_id OX then x
  else hx_reg4 h x o_id.

(* src/python_if97.rs:134-143 *)
Definition py_sx (s x : num) (o_id : Z) : num :=
  if (s >? S_MAX4) || (s <? S_MIN4) || (x >? #1.0) || (x <? #0.0) then ofZ INVALID_VALUE
  else if Z.eqb o_id OS then s
  else if Z.eqb o_id OX then x
  else sx_reg4 s x o_id.

(* ---- python/seuif97/__init__.py ---- *)

(* python/seuif97/__init__.py:5 *)
Definition pyc_OP : Z := 0.
(* python/seuif97/__init__.py:6 *)
Definition pyc_OT : Z := 1.
(* python/seuif97/__init__.py:7 *)
Definition pyc_OV : Z := 3.
(* python/seuif97/__init__.py:8 *)
Definition pyc_OH : Z := 4.
(* python/seuif97/__init__.py:9 *)
Definition pyc_OS : Z := 5.
(* python/seuif97/__init__.py:10 *)
Definition pyc_OX : Z := 15.

(* python/seuif97/__init__.py:13-14 *)
Definition pyh_pt2h (p t : num) : num := py_pt p t pyc_OH.
(* python/seuif97/__init__.py:17-18 *)
Definition pyh_pt2s (p t : num) : num := py_pt p t pyc_OS.
(* python/seuif97/__init__.py:21-22 *)
Definition pyh_pt2v (p t : num) : num := py_pt p t pyc_OV.
(* python/seuif97/__init__.py:25-26 *)
Definition pyh_pt2x (p t : num) : num := py_pt p t pyc_OX.
(* python/seuif97/__init__.py:31-32 *)
Definition pyh_ph2t (p h : num) : num := py_ph p h pyc_OT.
(* python/seuif97/__init__.py:35-36 *)
Definition pyh_ph2s (p h : num) : num := py_ph p h pyc_OS.
(* python/seuif97/__init__.py:39-40 *)
Definition pyh_ph2v (p h : num) : num := py_ph p h pyc_OV.
(* python/seuif97/__init__.py:43-44 *)
Definition pyh_ph2x (p h : num) : num := py_ph p h pyc_OX.
(* python/seuif97/__init__.py:49-50 *)
Definition pyh_ps2h (p s : num) : num := py_ps p s pyc_OH.
(* python/seuif97/__init__.py:53-54 *)
Definition pyh_ps2t (p s : num) : num := py_ps p s pyc_OT.
(* python/seuif97/__init__.py:57-58 *)
Definition pyh_ps2v (p s : num) : num := py_ps p s pyc_OV.
(* python/seuif97/__init__.py:61-62 *)
Definition pyh_ps2x (p s : num) : num := py_ps p s pyc_OX.
(* python/seuif97/__init__.py:67-68 *)
Definition pyh_hs2p (fuel : positive) (h s : num) : option num := py_hs fuel h s pyc_OP.
(* python/seuif97/__init__.py:71-72 *)
Definition pyh_hs2t (fuel : positive) (h s : num) : option num := py_hs fuel h s pyc_OT.
(* python/seuif97/__init__.py:75-76 *)
Definition pyh_hs2v (fuel : positive) (h s : num) : option num := py_hs fuel h s pyc_OV.
(* python/seuif97/__init__.py:79-80 *)
Definition pyh_hs2x (fuel : positive) (h s : num) : option num := py_hs fuel h s pyc_OX.
(* python/seuif97/__init__.py:85-86 *)
Definition pyh_pv2t (p v : num) : num := py_pv p v pyc_OT.
(* python/seuif97/__init__.py:89-90 *)
Definition pyh_pv2h (p v : num) : num := py_pv p v pyc_OH.
(* python/seuif97/__init__.py:93-94 *)
Definition pyh_pv2s (p v : num) : num := py_pv p v pyc_OS.
(* python/seuif97/__init__.py:97-98 *)
Definition pyh_pv2x (p v : num) : num := py_pv p v pyc_OX.
(* python/seuif97/__init__.py:103-104 *)
Definition pyh_tv2p (fuel : positive) (t v : num) : option num := py_tv fuel t v pyc_OP.
(* python/seuif97/__init__.py:107-108 *)
Definition pyh_tv2h (fuel : positive) (t v : num) : option num := py_tv fuel t v pyc_OH.
(* python/seuif97/__init__.py:111-112 *)
Definition pyh_tv2s (fuel : positive) (t v : num) : option num := py_tv fuel t v pyc_OS.
(* python/seuif97/__init__.py:115-116 *)
Definition pyh_tv2x (fuel : positive) (t v : num) : option num := py_tv fuel t v pyc_OX.
(* python/seuif97/__init__.py:121-122 *)
Definition pyh_th2p (fuel : positive) (t h : num) : option num := py_th fuel t h pyc_OP.
(* python/seuif97/__init__.py:125-126 *)
Definition pyh_th2s (fuel : positive) (t h : num) : option num := py_th fuel t h pyc_OS.
(* python/seuif97/__init__.py:129-130 *)
Definition pyh_th2v (fuel : positive) (t h : num) : option num := py_th fuel t h pyc_OV.
(* python/seuif97/__init__.py:133-134 *)
Definition pyh_th2x (fuel : positive) (t h : num) : option num := py_th fuel t h pyc_OX.
(* python/seuif97/__init__.py:139-140 *)
Definition pyh_ts2p (t s : num) : num := py_ts t s pyc_OP.
(* python/seuif97/__init__.py:143-144 *)
Definition pyh_ts2h (t s : num) : num := py_ts t s pyc_OH.
(* python/seuif97/__init__.py:147-148 *)
Definition pyh_ts2v (t s : num) : num := py_ts t s pyc_OV.
(* python/seuif97/__init__.py:151-152 *)
Definition pyh_ts2x (t s : num) : num := py_ts t s pyc_OX.
(* python/seuif97/__init__.py:157-158 *)
Definition pyh_px2t (p x : num) : num := py_px p x pyc_OT.
(* python/seuif97/__init__.py:161-162 *)
Definition pyh_px2h (p x : num) : num := py_px p x pyc_OH.
(* python/seuif97/__init__.py:165-166 *)
Definition pyh_px2s (p x : num) : num := py_px p x pyc_OS.
(* python/seuif97/__init__.py:169-170 *)
Definition pyh_px2v (p x : num) : num := py_px p x pyc_OV.
(* python/seuif97/__init__.py:175-176 *)
Definition pyh_tx2p (t x : num) : num := py_tx t x pyc_OP.
(* python/seuif97/__init__.py:179-180 *)
Definition pyh_tx2h (t x : num) : num := py_tx t x pyc_OH.
(* python/seuif97/__init__.py:183-184 *)
Definition pyh_tx2s (t x : num) : num := py_tx t x pyc_OS.
(* python/seuif97/__init__.py:187-188 *)
Definition pyh_tx2v (t x : num) : num := py_tx t x pyc_OV.
(* python/seuif97/__init__.py:193-194 *)
Definition pyh_hx2p (h x : num) : num := py_hx h x pyc_OP.
(* python/seuif97/__init__.py:197-198 *)
Definition pyh_hx2t (h x : num) : num := py_hx h x pyc_OT.
(* python/seuif97/__init__.py:201-202 *)
Definition pyh_hx2s (h x : num) : num := py_hx h x pyc_OS.
(* python/seuif97/__init__.py:205-206 *)
Definition pyh_hx2v (h x : num) : num := py_hx h x pyc_OV.
(* python/seuif97/__init__.py:211-212 *)
Definition pyh_sx2p (s x : num) : num := py_sx s x pyc_OP.
(* python/seuif97/__init__.py:215-216 *)
Definition pyh_sx2t (s x : num) : num := py_sx s x pyc_OT.
(* python/seuif97/__init__.py:219-220 *)
Definition pyh_sx2h (s x : num) : num := py_sx s x pyc_OH.
(* python/seuif97/__init__.py:223-224 *)
Definition pyh_sx2v (s x : num) : num := py_sx s x pyc_OV.

End Model.

(* calling conventions a C compiler distinguishes on 32-bit Windows *)
Inductive abi := abi_C | abi_stdcall.

(* src/cdecl_c_if97.rs, the extern qualifier of every #[no_mangle] function: lines 13, 25, 36, 47, 58, 71, 87, 98, 109, 120, 131, 144 *)
Definition cdecl_exports : list (string * abi) :=
  [("pt"%string, abi_stdcall);
   ("ph"%string, abi_C);
   ("ps"%string, abi_C);
   ("hs"%string, abi_C);
   ("px"%string, abi_C);
   ("tx"%string, abi_C);
   ("pv"%string, abi_C);
   ("tv"%string, abi_C);
   ("th"%string, abi_C);
   ("ts"%string, abi_C);
   ("hx"%string, abi_C);
   ("sx"%string, abi_C)].

(* src/stdcall_c_if97.rs, the extern qualifier of every #[no_mangle] function: lines 13, 25, 36, 47, 58, 71, 87, 98, 109, 120, 131, 144 *)
Definition stdcall_exports : list (string * abi) :=
  [("pt"%string, abi_stdcall);
   ("ph"%string, abi_stdcall);
   ("ps"%string, abi_stdcall);
   ("hs"%string, abi_stdcall);
   ("px"%string, abi_stdcall);
   ("tx"%string, abi_stdcall);
   ("pv"%string, abi_stdcall);
   ("tv"%string, abi_stdcall);
   ("th"%string, abi_stdcall);
   ("ts"%string, abi_stdcall);
   ("hx"%string, abi_stdcall);
   ("sx"%string, abi_stdcall)].

(* src/python_if97.rs:147-161, functions registered in the module *)
Definition py_exports : list string :=
  ["pt"%string; "ph"%string; "ps"%string; "pv"%string; "tv"%string; "th"%string; "ts"%string; "hs"%string; "px"%string; "tx"%string; "hx"%string; "sx"%string].
