(* Property theorems about the call layer (C01-C05, C12-C17, C46-C48).
   Vocabulary: Spec.v.  [forall N : Arith] = whatever the arithmetic, in particular
   binary64 with any libm ([FArith L]) and exact reals ([RArith]). *)
From Coq Require Import ZArith List Bool String Floats Reals Lia.
From Verif Require Import Num FloatInst RealInst Constant Api Bindings Spec Control Consist InstFacts.
Import ListNotations.
Open Scope num_scope.

Definition F := FArith RefLibm.

(* C01: an input is echoed unchanged whatever the other arguments are. *)
Theorem C01_echo : forall (N : Arith) fuel (f : api2) (a b : num) (reg : Z),
  call fuel f a b (from_pair (id1 f, reg)) = Some a /\
  call fuel f a b (from_pair (id2 f, reg)) = Some b.
Proof. exact (fun N fuel f a b r => conj (echo1 fuel f a b r) (echo2 fuel f a b r)). Qed.
Print Assumptions C01_echo.
Example C01_example : @call F 1 TH nan 300%float (from_pair (OT, 7%Z)) = Some nan.
Proof. reflexivity. Qed.

(* C02: range rejection and echo of px, tx, hx, sx. *)
Theorem C02_px : forall (N : Arith) (p x : num),
  ((p <? #0.000611212677444) || (#22.064 <? p) || (x <? #0.0) || (#1.0 <? x) = true ->
     forall o, px p x o = ofZ (-9999)) /\
  ((p <? #0.000611212677444) || (#22.064 <? p) || (x <? #0.0) || (#1.0 <? x) = false ->
     px p x OP = p /\ px p x OX = x).
Proof.
  exact (fun N p x => conj (fun H o => px_outside p x o H)
    (fun H => conj (proj1 (px_inside p x H)) (proj1 (proj2 (px_inside p x H))))).
Qed.
Print Assumptions C02_px.
Theorem C02_hx : forall (N : Arith) (h x : num),
  ((h <? #0.38039218566765925) || (#2803.2738880203456 <? h) || (x <? #0.0) || (#1.0 <? x) = true ->
     forall o, hx h x o = ofZ (-9999)) /\
  ((h <? #0.38039218566765925) || (#2803.2738880203456 <? h) || (x <? #0.0) || (#1.0 <? x) = false ->
     hx h x OH = h /\ hx h x OX = x).
Proof.
  exact (fun N p x => conj (fun H o => hx_outside p x o H)
    (fun H => conj (proj1 (hx_inside p x H)) (proj1 (proj2 (hx_inside p x H))))).
Qed.
Print Assumptions C02_hx.
Theorem C02_sx : forall (N : Arith) (s x : num),
  ((s <? #0.33567511183921145) || (#9.153081306725117 <? s) || (x <? #0.0) || (#1.0 <? x) = true ->
     forall o, sx s x o = ofZ (-9999)) /\
  ((s <? #0.33567511183921145) || (#9.153081306725117 <? s) || (x <? #0.0) || (#1.0 <? x) = false ->
     sx s x OS = s /\ sx s x OX = x).
Proof.
  exact (fun N p x => conj (fun H o => sx_outside p x o H)
    (fun H => conj (proj1 (sx_inside p x H)) (proj1 (proj2 (sx_inside p x H))))).
Qed.
Print Assumptions C02_sx.
Theorem C02_tx : forall (N : Arith) (t x : num),
  (tx t x OT = t /\ tx t x OX = x) /\
  (forall o, o <> OT -> o <> OX ->
   (t + #273.15 <? #273.15) || (#647.096 <? t + #273.15) || (x <? #0.0) || (#1.0 <? x) = true ->
   tx t x o = ofZ (-9999)).
Proof. exact (fun N t x => conj (tx_echo t x) (tx_outside t x)). Qed.
Print Assumptions C02_tx.
Example C02_examples :
  let out (p x : float) := @orb (@ltb F p (lit 0.000611212677444)) (@orb (@ltb F (lit 22.064) p)
       (@orb (@ltb F x (lit 0.0)) (@ltb F (lit 1.0) x))) in
  out 10%float 0.5%float = false /\ out 22.1%float 0.5%float = true /\ out 10%float (-1)%float = true.
Proof. vm_compute. auto. Qed.

(* C03: a region query answers a region number or a documented error code. *)
Theorem C03_region_closed : forall (N : Arith) fuel (f : api2) (a b v : num),
  call fuel f a b (from_i32 OR) = Some v ->
  exists r, In r (region_numbers ++ error_codes f) /\ v = ofZ r.
Proof. exact (@region_query_closed). Qed.
Print Assumptions C03_region_closed.
Example C03_example : @call F 1 PT 3%float 27%float (from_i32 OR) = Some 1%float
  /\ @call F 1 PS 3%float (-5)%float (from_i32 OR) = Some (-9999)%float.
Proof. vm_compute. auto. Qed.

(* C04: automatic region = explicit region, for every id; and if the region search
   of a function does not finish, no property of that call does. *)
Theorem C04_auto_explicit : forall (N : Arith) fuel (f : api2) (a b v : num),
  call fuel f a b (from_i32 OR) = Some v ->
  exists r, In r (region_numbers ++ error_codes f) /\ v = ofZ r /\
    forall o, call fuel f a b (from_i32 o) = call fuel f a b (from_pair (o, r)).
Proof. exact (@auto_is_explicit). Qed.
Print Assumptions C04_auto_explicit.
Theorem C04_float : forall (L : Libm) fuel (f : api2) (a b : float) (r : Z),
  In r (region_numbers ++ error_codes f) ->
  @call (FArith L) fuel f a b (from_i32 OR) = Some (float_of_Z r) ->
  forall o, @call (FArith L) fuel f a b (from_i32 o) = @call (FArith L) fuel f a b (from_pair (o, r)).
Proof. exact (fun L => @region_known (FArith L) (float_codes_distinct L)). Qed.
Print Assumptions C04_float.
Theorem C04_unfinished : forall (N : Arith) fuel (f : api2) (a b : num),
  call fuel f a b (from_i32 OR) = None ->
  forall o, ~ is_input f o -> call fuel f a b (from_i32 o) = None.
Proof. exact (@auto_unfinished). Qed.
Print Assumptions C04_unfinished.
Example C04_example : @call F 1 PT 3%float 27%float (from_i32 OR) = Some (float_of_Z 1)
  /\ In 1%Z (region_numbers ++ error_codes PT)
  /\ @call F 1 PT 3%float 27%float (from_i32 OV) = @call F 1 PT 3%float 27%float (from_pair (OV, 1%Z)).
Proof. vm_compute. auto. Qed.

(* C05: an error code found by the region search is the answer to every property
   except the inputs and the quality, whose answer is -9999. *)
Theorem C05_errors : forall (L : Libm) fuel (f : api2) (a b : float) (c o : Z),
  In c (error_codes f) ->
  @call (FArith L) fuel f a b (from_i32 OR) = Some (float_of_Z c) ->
  ~ is_input f o ->
  @call (FArith L) fuel f a b (from_i32 o) = Some (float_of_Z (if Z.eqb o OX then -9999 else c)).
Proof. exact (fun L => @errors_everywhere (FArith L) (float_codes_distinct L)). Qed.
Print Assumptions C05_errors.
Example C05_example : @call F 1 PT 101%float 27%float (from_i32 OR) = Some (float_of_Z (-2100))
  /\ In (-2100)%Z (error_codes PT) /\ ~ is_input PT OH
  /\ @call F 1 PT 101%float 27%float (from_i32 OH) = Some (-2100)%float.
Proof. split; [vm_compute; reflexivity|]. split; [cbn; auto|]. split; [intros [H|H]; discriminate H|vm_compute; reflexivity]. Qed.

(* C12: quality of single-phase states. *)
Theorem C12_quality : forall (L : Libm) fuel (f : api2) (a b : float) (r : Z),
  In r (region_numbers ++ error_codes f) ->
  @call (FArith L) fuel f a b (from_i32 OR) = Some (float_of_Z r) ->
  (r = 1%Z -> @call (FArith L) fuel f a b (from_i32 OX) = Some (float_of_dec 0.0)) /\
  (r = 2%Z \/ r = 3%Z \/ r = 5%Z -> @call (FArith L) fuel f a b (from_i32 OX) = Some (float_of_dec 1.0)) /\
  ((r < 0)%Z -> @call (FArith L) fuel f a b (from_i32 OX) = Some (float_of_Z (-9999))).
Proof. exact (fun L => @quality_auto (FArith L) (float_codes_distinct L)). Qed.
Print Assumptions C12_quality.
Theorem C12_quality_explicit : forall (N : Arith) fuel (f : api2) (a b : num) (r : Z),
  (r = 1%Z -> call fuel f a b (from_pair (OX, r)) = Some (#0.0)) /\
  (r = 2%Z \/ r = 3%Z \/ r = 5%Z -> call fuel f a b (from_pair (OX, r)) = Some (#1.0)) /\
  (~ (1 <= r <= 5)%Z -> r <> 10%Z -> call fuel f a b (from_pair (OX, r)) = Some (ofZ (-9999))).
Proof. exact (@quality_explicit). Qed.
Print Assumptions C12_quality_explicit.
Example C12_example : @call F 1 PT 1%float 400%float (from_i32 OR) = Some (float_of_Z 2)
  /\ @call F 1 PT 1%float 400%float (from_i32 OX) = Some 1%float.
Proof. vm_compute. auto. Qed.

(* C13: ids outside 0..35 are rejected with -1000 in every region (pt's region 4,
   which is not a single-phase region, is treated in C11). *)
Theorem C13_unknown : forall (L : Libm) fuel (f : api2) (a b v : float) (o r : Z),
  unknown_id o -> (1 <= r <= 5)%Z -> ~ (f = PT /\ r = 4%Z) ->
  @call (FArith L) fuel f a b (from_i32 OR) = Some (float_of_Z r) ->
  @call (FArith L) fuel f a b (from_i32 o) = Some v -> v = float_of_Z (-1000).
Proof.
  exact (fun L fuel f a b v o r => @unknown_auto (FArith L) (float_codes_distinct L) fuel f a b o r v).
Qed.
Print Assumptions C13_unknown.
Theorem C13_unknown_explicit : forall (N : Arith) fuel (f : api2) (a b v : num) (o r : Z),
  unknown_id o -> (1 <= r <= 5)%Z -> ~ (f = PT /\ r = 4%Z) ->
  call fuel f a b (from_pair (o, r)) = Some v -> v = ofZ (-1000).
Proof. exact (fun N fuel f a b v o r => @unknown_rejected N fuel f a b o r v). Qed.
Print Assumptions C13_unknown_explicit.
Theorem C13_px : forall (N : Arith) (p x : num) (o : Z), unknown_id o ->
  (p <? #0.000611212677444) || (#22.064 <? p) || (x <? #0.0) || (#1.0 <? x) = false ->
  px p x o = ofZ (-1000).
Proof. exact (@px_unknown). Qed.
Print Assumptions C13_px.
Theorem C13_tx : forall (N : Arith) (t x : num) (o : Z), unknown_id o ->
  (t + #273.15 <? #273.15) || (#647.096 <? t + #273.15) || (x <? #0.0) || (#1.0 <? x) = false ->
  tx t x o = ofZ (-1000).
Proof. exact (@tx_unknown). Qed.
Print Assumptions C13_tx.
Theorem C13_hx : forall (N : Arith) (h x : num) (o : Z), unknown_id o ->
  (h <? #0.38039218566765925) || (#2803.2738880203456 <? h) || (x <? #0.0) || (#1.0 <? x) = false ->
  hx h x o = ofZ (-1000).
Proof. exact (@hx_unknown). Qed.
Print Assumptions C13_hx.
Theorem C13_sx : forall (N : Arith) (s x : num) (o : Z), unknown_id o ->
  (s <? #0.33567511183921145) || (#9.153081306725117 <? s) || (x <? #0.0) || (#1.0 <? x) = false ->
  sx s x o = ofZ (-1000).
Proof. exact (@sx_unknown). Qed.
Print Assumptions C13_sx.
Example C13_example : unknown_id 36 /\ unknown_id (-1)
  /\ @call F 1 PT 3%float 27%float (from_i32 36) = Some (-1000)%float
  /\ @px F 3%float 0.5%float 36 = (-1000)%float.
Proof. split; [right; lia|]. split; [left; lia|]. vm_compute. auto. Qed.

(* C14: the exported C functions (both builds) and Python functions are the Rust
   functions called without a region. *)
Theorem C14_c : forall (N : Arith) fuel (a b : num) (o : Z),
  c_pt a b o = pt a b (from_i32 o) /\ c_ph a b o = ph a b (from_i32 o) /\
  c_ps a b o = ps a b (from_i32 o) /\ c_hs fuel a b o = hs fuel a b (from_i32 o) /\
  c_pv a b o = pv a b (from_i32 o) /\ c_tv fuel a b o = tv fuel a b (from_i32 o) /\
  c_th fuel a b o = th fuel a b (from_i32 o) /\ c_ts a b o = ts a b (from_i32 o) /\
  c_px a b o = px a b o /\ c_tx a b o = tx a b o /\ c_hx a b o = hx a b o /\ c_sx a b o = sx a b o.
Proof. intros; repeat (match goal with |- _ /\ _ => split end); reflexivity. Qed.
Print Assumptions C14_c.
Theorem C14_stdcall : forall (N : Arith) fuel (a b : num) (o : Z),
  std_pt a b o = pt a b (from_i32 o) /\ std_ph a b o = ph a b (from_i32 o) /\
  std_ps a b o = ps a b (from_i32 o) /\ std_hs fuel a b o = hs fuel a b (from_i32 o) /\
  std_pv a b o = pv a b (from_i32 o) /\ std_tv fuel a b o = tv fuel a b (from_i32 o) /\
  std_th fuel a b o = th fuel a b (from_i32 o) /\ std_ts a b o = ts a b (from_i32 o) /\
  std_px a b o = px a b o /\ std_tx a b o = tx a b o /\ std_hx a b o = hx a b o /\ std_sx a b o = sx a b o.
Proof. intros; repeat (match goal with |- _ /\ _ => split end); reflexivity. Qed.
Print Assumptions C14_stdcall.
Theorem C14_python : forall (N : Arith) fuel (a b : num) (o : Z),
  py_pt a b o = pt a b (from_i32 o) /\ py_ph a b o = ph a b (from_i32 o) /\
  py_ps a b o = ps a b (from_i32 o) /\ py_hs fuel a b o = hs fuel a b (from_i32 o) /\
  py_pv a b o = pv a b (from_i32 o) /\ py_tv fuel a b o = tv fuel a b (from_i32 o) /\
  py_th fuel a b o = th fuel a b (from_i32 o) /\ py_ts a b o = ts a b (from_i32 o) /\
  py_px a b o = px a b o /\ py_tx a b o = tx a b o /\ py_hx a b o = hx a b o /\ py_sx a b o = sx a b o.
Proof. intros; repeat (match goal with |- _ /\ _ => split end); reflexivity. Qed.
Print Assumptions C14_python.

(* C15: the Python helpers and constants. *)
Theorem C15_constants :
  pyc_OP = OP /\ pyc_OT = OT /\ pyc_OV = OV /\ pyc_OH = OH /\ pyc_OS = OS /\ pyc_OX = OX.
Proof. intros; repeat (match goal with |- _ /\ _ => split end); reflexivity. Qed.
Print Assumptions C15_constants.
Theorem C15_helpers : forall (N : Arith) fuel (a b : num),
  (pyh_pt2h a b = pt a b (from_i32 OH) /\ pyh_pt2s a b = pt a b (from_i32 OS) /\
   pyh_pt2v a b = pt a b (from_i32 OV) /\ pyh_pt2x a b = pt a b (from_i32 OX)) /\
  (pyh_ph2t a b = ph a b (from_i32 OT) /\ pyh_ph2s a b = ph a b (from_i32 OS) /\
   pyh_ph2v a b = ph a b (from_i32 OV) /\ pyh_ph2x a b = ph a b (from_i32 OX)) /\
  (pyh_ps2h a b = ps a b (from_i32 OH) /\ pyh_ps2t a b = ps a b (from_i32 OT) /\
   pyh_ps2v a b = ps a b (from_i32 OV) /\ pyh_ps2x a b = ps a b (from_i32 OX)) /\
  (pyh_hs2p fuel a b = hs fuel a b (from_i32 OP) /\ pyh_hs2t fuel a b = hs fuel a b (from_i32 OT) /\
   pyh_hs2v fuel a b = hs fuel a b (from_i32 OV) /\ pyh_hs2x fuel a b = hs fuel a b (from_i32 OX)) /\
  (pyh_pv2t a b = pv a b (from_i32 OT) /\ pyh_pv2h a b = pv a b (from_i32 OH) /\
   pyh_pv2s a b = pv a b (from_i32 OS) /\ pyh_pv2x a b = pv a b (from_i32 OX)) /\
  (pyh_tv2p fuel a b = tv fuel a b (from_i32 OP) /\ pyh_tv2h fuel a b = tv fuel a b (from_i32 OH) /\
   pyh_tv2s fuel a b = tv fuel a b (from_i32 OS) /\ pyh_tv2x fuel a b = tv fuel a b (from_i32 OX)) /\
  (pyh_th2p fuel a b = th fuel a b (from_i32 OP) /\ pyh_th2s fuel a b = th fuel a b (from_i32 OS) /\
   pyh_th2v fuel a b = th fuel a b (from_i32 OV) /\ pyh_th2x fuel a b = th fuel a b (from_i32 OX)) /\
  (pyh_ts2p a b = ts a b (from_i32 OP) /\ pyh_ts2h a b = ts a b (from_i32 OH) /\
   pyh_ts2v a b = ts a b (from_i32 OV) /\ pyh_ts2x a b = ts a b (from_i32 OX)) /\
  (pyh_px2t a b = px a b OT /\ pyh_px2h a b = px a b OH /\
   pyh_px2s a b = px a b OS /\ pyh_px2v a b = px a b OV) /\
  (pyh_tx2p a b = tx a b OP /\ pyh_tx2h a b = tx a b OH /\
   pyh_tx2s a b = tx a b OS /\ pyh_tx2v a b = tx a b OV) /\
  (pyh_hx2p a b = hx a b OP /\ pyh_hx2t a b = hx a b OT /\
   pyh_hx2s a b = hx a b OS /\ pyh_hx2v a b = hx a b OV) /\
  (pyh_sx2p a b = sx a b OP /\ pyh_sx2t a b = sx a b OT /\
   pyh_sx2h a b = sx a b OH /\ pyh_sx2v a b = sx a b OV).
Proof. intros; repeat (match goal with |- _ /\ _ => split end); reflexivity. Qed.
Print Assumptions C15_helpers.

(* C16: the 36 ids are pairwise different and are exactly 0..35. *)
Theorem C16_ids : NoDup all_ids /\ List.length all_ids = 36%nat /\
  (forall k, In k all_ids <-> (0 <= k <= 35)%Z).
Proof. exact all_ids_ok. Qed.
Print Assumptions C16_ids.

(* C17: density and specific volume. *)
Theorem C17_density : forall (N : Arith) fuel (f : api2) (a b v : num) (r : Z),
  In (f, r) (list_prod [PT; PH; PS; HS] [1; 2; 3; 5]%Z ++ list_prod [TH; TS] [1; 2; 5]%Z) ->
  call fuel f a b (from_pair (OV, r)) = Some v ->
  call fuel f a b (from_pair (OD, r)) = Some (#1.0 / v).
Proof. exact (fun N fuel f a b v r => @density_volume N fuel f a b r v). Qed.
Print Assumptions C17_density.
Theorem C17_density_input : forall (N : Arith) fuel (f : api2) (a b : num) (r : Z),
  In (f, r) [(TV, 1); (TV, 3); (TV, 5); (PV, 3)]%Z ->
  call fuel f a b (from_pair (OV, r)) = Some b /\
  call fuel f a b (from_pair (OD, r)) = Some (#1.0 / b).
Proof. exact (@density_input_volume). Qed.
Print Assumptions C17_density_input.
Theorem C17_volume : forall (N : Arith) fuel (f : api2) (a b d : num),
  In f [TH; TS] -> call fuel f a b (from_pair (OD, 3%Z)) = Some d ->
  call fuel f a b (from_pair (OV, 3%Z)) = Some (#1.0 / d).
Proof. exact (@volume_of_density). Qed.
Print Assumptions C17_volume.
(* automatic region: whatever single-phase region pt, ph, ps or hs finds *)
Theorem C17_density_auto : forall (L : Libm) fuel (f : api2) (a b v : float) (r : Z),
  In (f, r) (list_prod [PT; PH; PS; HS] [1; 2; 3; 5]%Z ++ list_prod [TH; TS] [1; 2; 5]%Z) ->
  @call (FArith L) fuel f a b (from_i32 OR) = Some (float_of_Z r) ->
  @call (FArith L) fuel f a b (from_i32 OV) = Some v ->
  @call (FArith L) fuel f a b (from_i32 OD) = Some (PrimFloat.div (float_of_dec 1.0) v).
Proof. exact (fun L => @density_auto (FArith L) (float_codes_distinct L)). Qed.
Print Assumptions C17_density_auto.
Example C17_example : exists v, @call F 1 PT 3%float 27%float (from_i32 OV) = Some v
  /\ @call F 1 PT 3%float 27%float (from_i32 OR) = Some (float_of_Z 1) /\ PrimFloat.ltb 0 v = true.
Proof. eexists. split; [vm_compute; reflexivity|]. vm_compute. auto. Qed.

(* C46 (full statement: every export of the cdecl build uses the C convention). *)
Theorem C46_cdecl_refuted : exists name, In (name, abi_stdcall) cdecl_exports.
Proof. exact (ex_intro _ "pt"%string (or_introl eq_refl)). Qed.
Print Assumptions C46_cdecl_refuted.
Theorem C46_only_pt : forall name c, In (name, c) cdecl_exports -> name <> "pt"%string -> c = abi_C.
Proof. exact cdecl_only_pt. Qed.
Print Assumptions C46_only_pt.
Theorem C46_stdcall : forall name c, In (name, c) stdcall_exports -> c = abi_stdcall.
Proof. exact stdcall_all. Qed.
Print Assumptions C46_stdcall.
Theorem C46_same_names : map fst cdecl_exports = map fst stdcall_exports /\
  (forall n, In n py_exports <-> In n (map fst cdecl_exports)).
Proof. exact same_names. Qed.
Print Assumptions C46_same_names.

(* C47: explicit region argument outside 1..5; 10 means automatic. *)
Theorem C47_explicit_region : forall (N : Arith) fuel (f : api2) (a b : num) (o r : Z),
  ~ is_input f o ->
  (~ (1 <= r <= 5)%Z -> r <> 10%Z ->
     call fuel f a b (from_pair (o, r)) = Some (ofZ (if Z.eqb o OX then -9999 else r))) /\
  call fuel f a b (from_pair (o, 10%Z)) = call fuel f a b (from_i32 o).
Proof.
  exact (fun N fuel f a b o r Hi => conj (fun Hr Hn => explicit_outside fuel f a b o r Hr Hn Hi) eq_refl).
Qed.
Print Assumptions C47_explicit_region.
Example C47_example : ~ is_input PT OH /\ @call F 1 PT 3%float 27%float (from_pair (OH, 7%Z)) = Some 7%float.
Proof. split; [intros [H|H]; discriminate H|vm_compute; reflexivity]. Qed.

(* C48: all properties of one call belong to one state.  Bit for bit, any arithmetic: *)
Theorem C48_temperature_given : forall (N : Arith) fuel (f : api2) (t y p : num) (r : Z),
  In (f, r) ((TV, 2%Z) :: list_prod [TH; TS] [1; 2; 5]%Z) ->
  call fuel f t y (from_pair (OP, r)) = Some p ->
  forall o, ~ is_input f o -> o <> OP ->
  call fuel f t y (from_pair (o, r)) = call fuel PT p t (from_pair (o, r)).
Proof. exact (fun N fuel f a b p r => @state_TP N fuel f a b r p). Qed.
Print Assumptions C48_temperature_given.
Theorem C48_tv : forall (N : Arith) fuel (t v p : num) (r : Z),
  r = 1%Z \/ r = 5%Z ->
  call fuel TV t v (from_pair (OP, r)) = Some p ->
  forall o, ~ is_input TV o -> o <> OP -> o <> OD ->
  call fuel TV t v (from_pair (o, r)) = call fuel PT p t (from_pair (o, r)).
Proof. exact (fun N fuel a b p r => @state_TP_tv N fuel a b r p). Qed.
Print Assumptions C48_tv.
Theorem C48_wet_pressure : forall (N : Arith) fuel (f : api2) (p y x : num),
  In f [PH; PS; PV] -> call fuel f p y (from_pair (OX, 4%Z)) = Some x ->
  (p <? #0.000611212677444) || (#22.064 <? p) || (x <? #0.0) || (#1.0 <? x) = false ->
  forall o, ~ is_input f o -> o <> OX -> o <> OR ->
  call fuel f p y (from_pair (o, 4%Z)) = Some (px p x o).
Proof. exact (@state_px). Qed.
Print Assumptions C48_wet_pressure.
Theorem C48_wet_temperature : forall (N : Arith) fuel (f : api2) (t y x : num),
  In f [TV; TH; TS] -> call fuel f t y (from_pair (OX, 4%Z)) = Some x ->
  (t + #273.15 <? #273.15) || (#647.096 <? t + #273.15) || (x <? #0.0) || (#1.0 <? x) = false ->
  forall o, ~ is_input f o -> o <> OX -> o <> OR ->
  call fuel f t y (from_pair (o, 4%Z)) = Some (tx t x o).
Proof. exact (@state_tx). Qed.
Print Assumptions C48_wet_temperature.
Theorem C48_wet_hs : forall (N : Arith) fuel (h s p x : num),
  call fuel HS h s (from_pair (OP, 4%Z)) = Some p ->
  call fuel HS h s (from_pair (OX, 4%Z)) = Some x ->
  (p <? #0.000611212677444) || (#22.064 <? p) || (x <? #0.0) || (#1.0 <? x) = false ->
  forall o, ~ is_input HS o -> ~ In o [OP; OT; OX; OR] ->
  call fuel HS h s (from_pair (o, 4%Z)) = Some (px p x o).
Proof. exact (@state_hs4). Qed.
Print Assumptions C48_wet_hs.
Theorem C48_pt_region3 : forall (N : Arith) fuel (p t v : num),
  call fuel PT p t (from_pair (OV, 3%Z)) = Some v ->
  forall o, ~ is_input PT o -> o <> OV ->
  call fuel PT p t (from_pair (o, 3%Z)) = call fuel TV t v (from_pair (o, 3%Z)).
Proof. exact (@state_Tv_pt). Qed.
Print Assumptions C48_pt_region3.
(* ... and in exact arithmetic (the temperature is converted to Celsius and back): *)
Theorem C48_pressure_given : forall fuel (f : api2) (p y t : R) (r : Z),
  In (f, r) (list_prod [PH; PS; PV] [1; 2; 5]%Z) ->
  @call RArith fuel f p y (from_pair (OT, r)) = Some t ->
  forall o, ~ is_input f o -> o <> OT ->
  @call RArith fuel f p y (from_pair (o, r)) = @call RArith fuel PT p t (from_pair (o, r)).
Proof. exact (fun fuel f a b t r => @state_pT RArith real_celsius fuel f a b r t). Qed.
Print Assumptions C48_pressure_given.
Theorem C48_hs : forall fuel (h s p t : R) (r : Z),
  In r [1; 2; 5]%Z ->
  @call RArith fuel HS h s (from_pair (OP, r)) = Some p ->
  @call RArith fuel HS h s (from_pair (OT, r)) = Some t ->
  forall o, ~ is_input HS o -> o <> OP -> o <> OT ->
  @call RArith fuel HS h s (from_pair (o, r)) = @call RArith fuel PT p t (from_pair (o, r)).
Proof. exact (fun fuel a b p t r => @state_hs RArith real_celsius fuel a b r p t). Qed.
Print Assumptions C48_hs.
Theorem C48_region3 : forall fuel (f : api2) (a b t v : R),
  In f [PH; PS; HS; PV] ->
  @call RArith fuel f a b (from_pair (OT, 3%Z)) = Some t ->
  @call RArith fuel f a b (from_pair (OV, 3%Z)) = Some v ->
  forall o, ~ is_input f o -> o <> OT -> o <> OV -> o <> OP ->
  @call RArith fuel f a b (from_pair (o, 3%Z)) = @call RArith fuel TV t v (from_pair (o, 3%Z)).
Proof. exact (@state_Tv RArith real_celsius). Qed.
Print Assumptions C48_region3.
Theorem C48_region3_temperature_given : forall fuel (f : api2) (t y v d : R),
  In f [TH; TS] ->
  @call RArith fuel f t y (from_pair (OV, 3%Z)) = Some v ->
  @call RArith fuel f t y (from_pair (OD, 3%Z)) = Some d -> d <> 0%R ->
  forall o, ~ is_input f o -> o <> OV ->
  @call RArith fuel f t y (from_pair (o, 3%Z)) = @call RArith fuel TV t v (from_pair (o, 3%Z)).
Proof. exact state_Td_real. Qed.
Print Assumptions C48_region3_temperature_given.
Example C48_example :
  exists p, @call F 1 TS 27%float 0.39%float (from_pair (OP, 1%Z)) = Some p /\
  PrimFloat.ltb 0 p = true /\
  @call F 1 TS 27%float 0.39%float (from_pair (OV, 1%Z)) = @call F 1 PT p 27%float (from_pair (OV, 1%Z)).
Proof. eexists. split; [vm_compute; reflexivity|]. vm_compute. auto. Qed.
Example C48_example_wet :
  exists x, @call F 1 PH 1%float 1500%float (from_pair (OX, 4%Z)) = Some x /\
  PrimFloat.ltb 0.3 x = true /\ PrimFloat.ltb x 0.4 = true.
Proof. eexists. split; [vm_compute; reflexivity|]. vm_compute. auto. Qed.
