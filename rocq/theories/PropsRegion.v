(* Property theorems about the region search (C06-C11, C44).
   binary64 statements hold for every libm; where the saturation pressure has to be a
   number they assume [powi4_ok L]: powi(x, 4) is not NaN for 0 <= x <= 3. *)
From Coq Require Import ZArith List Bool Floats Reals Lra Lia.
From Verif Require Import Num FloatInst RealInst Constant R4Sat Boundaries Api Spec SpecReal Control
  NanFacts FloatOrder RegionMap SatFloat RegionPt.
Import ListNotations.
Open Scope num_scope.

Definition F := FArith RefLibm.

(* C06: a NaN input never selects a region, and no property is answered. *)
Theorem C06_nan : forall (L : Libm) fuel (f : api2) (a b : float),
  PrimFloat.is_nan a = true \/ PrimFloat.is_nan b = true ->
  exists c, In c (error_codes f) /\
    @call (FArith L) fuel f a b (from_i32 OR) = Some (float_of_Z c) /\
    forall o, ~ is_input f o ->
      @call (FArith L) fuel f a b (from_i32 o) = Some (float_of_Z (if Z.eqb o OX then -9999 else c)).
Proof. exact (fun L => @nan_error (FArith L) _ (float_nanlike L)). Qed.
Print Assumptions C06_nan.
Example C06_example : PrimFloat.is_nan nan = true /\ ~ is_input PH OT /\
  @call F 1 PH nan 300%float (from_i32 OT) = Some (-9999)%float.
Proof. split; [reflexivity|]. split; [intros [H|H]; discriminate H|vm_compute; reflexivity]. Qed.

(* C07, full statement: px, tx, hx and sx answer -9999 if an input is NaN. *)
Theorem C07_px : forall (L : Libm) (p x : float), PrimFloat.is_nan p = true ->
  (PrimFloat.ltb x 0 || PrimFloat.ltb 1 x)%bool = false ->
  @px (FArith L) p x OP = p /\ @px (FArith L) p x OX = x.
Proof. exact px_nan. Qed.
Print Assumptions C07_px.
Theorem C07_px_refuted : forall L : Libm, exists (p x : float) (o : Z),
  PrimFloat.is_nan p = true /\ @px (FArith L) p x o <> float_of_Z (-9999).
Proof. exact px_nan_refuted. Qed.
Print Assumptions C07_px_refuted.
Theorem C07_hx_refuted : forall L : Libm, exists (h x : float) (o : Z),
  PrimFloat.is_nan h = true /\ @hx (FArith L) h x o <> float_of_Z (-9999).
Proof. exact hx_nan_refuted. Qed.
Print Assumptions C07_hx_refuted.
Theorem C07_sx_refuted : forall L : Libm, exists (s x : float) (o : Z),
  PrimFloat.is_nan s = true /\ @sx (FArith L) s x o <> float_of_Z (-9999).
Proof. exact sx_nan_refuted. Qed.
Print Assumptions C07_sx_refuted.
Theorem C07_tx_refuted : forall L : Libm, exists (t x : float) (o : Z), o <> OT /\ o <> OX /\
  PrimFloat.is_nan t = true /\ @tx (FArith L) t x o <> float_of_Z (-9999).
Proof. exact tx_nan_refuted. Qed.
Print Assumptions C07_tx_refuted.
Example C07_example : PrimFloat.is_nan nan = true /\ (PrimFloat.ltb 0.5 0 || PrimFloat.ltb 1 0.5)%bool = false.
Proof. vm_compute. auto. Qed.

(* C08: the validity range of pt.  The first two hold in any arithmetic. *)
Theorem C08_bad_p : forall (N : Arith) fuel (p t : num),
  lt p (#0.000611212677444) \/ lt (#100.0) p -> call fuel PT p t (from_i32 OR) = Some (ofZ (-2100)).
Proof. exact (@pt_bad_p). Qed.
Print Assumptions C08_bad_p.
Theorem C08_bad_T : forall (N : Arith) fuel (p t : num),
  ~ (lt p (#0.000611212677444) \/ lt (#100.0) p) ->
  lt (t + #273.15) (#273.15) \/ lt (#2273.15) (t + #273.15) ->
  call fuel PT p t (from_i32 OR) = Some (ofZ (-2101)).
Proof. exact (@pt_bad_T). Qed.
Print Assumptions C08_bad_T.
Theorem C08_bad_p5 : forall (L : Libm) fuel (p t : float), let T := @add (FArith L) t (#273.15) in
  PrimFloat.is_nan p = false -> PrimFloat.is_nan T = false ->
  @lt (FArith L) (#1073.15) T -> @le (FArith L) T (#2273.15) -> @lt (FArith L) (#50.0) p ->
  @call (FArith L) fuel PT p t (from_i32 OR) = Some (float_of_Z (-2100)).
Proof. exact (fun L => @pt_bad_p5 (FArith L) ordered emb (float_ordemb L) (float_constord L)). Qed.
Print Assumptions C08_bad_p5.
Theorem C08_total : forall L : Libm, powi4_ok L -> forall fuel (p t : float),
  let T := @add (FArith L) t (#273.15) in
  PrimFloat.is_nan p = false -> PrimFloat.is_nan T = false ->
  @lt (FArith L) (#0.000611212677444) p -> @le (FArith L) p (#100.0) ->
  @le (FArith L) (#273.15) T -> @le (FArith L) T (#2273.15) ->
  (@lt (FArith L) (#1073.15) T -> @le (FArith L) p (#50.0)) ->
  exists r, (1 <= r <= 5)%Z /\ @call (FArith L) fuel PT p t (from_i32 OR) = Some (float_of_Z r).
Proof. exact float_pt_total. Qed.
Print Assumptions C08_total.
Example C08_example : powi4_ok RefLibm /\
  @lt F (#100.0) 100.5%float /\ @lt F (@add F 20%float (#273.15)) (#2273.15) /\
  @lt F (#0.000611212677444) 10%float /\ @le F 10%float (#50.0) /\ @lt F (#1073.15) (@add F 1500%float (#273.15)) /\
  @call F 1 PT 10%float 1500%float (from_i32 OR) = Some 5%float.
Proof. split; [exact ref_powi4|]. vm_compute. auto 10. Qed.

(* C09: away from the saturation band the reported region is the IF97 region. *)
Theorem C09_float : forall L : Libm, powi4_ok L -> forall fuel (p t : float) (r : Z),
  let N := FArith L in
  let T := @add N t (#273.15) in
  PrimFloat.is_nan p = false -> PrimFloat.is_nan T = false ->
  @lt N (#0.000611212677444) p -> @le N p (#100.0) ->
  ((@leb N (#273.15) T && @ltb N T (#647.096))%bool = true ->
     (@ltb N (@div N (@nabs N (@sub N p (@p_saturation N T))) (@p_saturation N T)) (#1.0e-6)) = false) /\
  ((@eqb N T (#647.096)) && (@eqb N p (#22.064)) = false) ->
  @if97_region N (@p_saturation N T) (@B23_T2p N T) p T r ->
  @call N fuel PT p t (from_i32 OR) = Some (float_of_Z r).
Proof. exact float_pt_region. Qed.
Print Assumptions C09_float.
(* in exact arithmetic, against the published equations *)
Theorem C09_real : forall fuel (p t : R) (r : Z), let T := (t + 273.15)%R in
  (0.000611212677444 < p <= 100)%R ->
  (273.15 <= T < 647.096 -> 1e-6 <= Rabs (p - if97_psat T) / if97_psat T)%R /\
  ~ (T = 647.096 /\ p = 22.064)%R ->
  if97_region_R p T r ->
  @call RArith fuel PT p t (from_i32 OR) = Some (IZR r).
Proof. exact real_pt_region. Qed.
Print Assumptions C09_real.
(* the definition covers the whole range, so the answer is always determined *)
Theorem C09_defined : forall p T : R, (273.15 <= T <= 2273.15)%R -> (1073.15 < T -> p <= 50)%R ->
  exists r, if97_region_R p T r.
Proof. exact real_region_exists. Qed.
Print Assumptions C09_defined.
Example C09_example :
  let T := @add F 400%float (#273.15) in
  @if97_region F (@p_saturation F T) (@B23_T2p F T) 50%float T 3 /\
  @call F 1 PT 50%float 400%float (from_i32 OR) = Some (float_of_Z 3).
Proof. cbv zeta. split; [apply if97_3; vm_compute; reflexivity|vm_compute; reflexivity]. Qed.
Example C09_example_real : if97_region_R 50 900 2 /\ ~ (900 = 647.096 /\ 50 = 22.064)%R.
Proof. split; [do 3 right; left; repeat split; lra|intros [A _]; lra]. Qed.

(* C10, full statement: every state with p = P_MIN and T in [273.15,1073.15] has a
   region.  False for all superheated states below 623.15 K. *)
Theorem C10_hole : forall L : Libm, powi4_ok L -> forall fuel (p t : float),
  let N := FArith L in
  let T := @add N t (#273.15) in
  PrimFloat.is_nan T = false -> p = @P_MIN N ->
  @le N (#273.15) T -> @le N T (#623.15) -> @lt N p (@p_saturation N T) ->
  ((@leb N (#273.15) T && @ltb N T (#647.096))%bool = true ->
     (@ltb N (@div N (@nabs N (@sub N p (@p_saturation N T))) (@p_saturation N T)) (#1.0e-6)) = false) /\
  ((@eqb N T (#647.096)) && (@eqb N p (#22.064)) = false) ->
  @call N fuel PT p t (from_i32 OR) = Some (float_of_Z (-9999)).
Proof. exact float_pt_hole. Qed.
Print Assumptions C10_hole.
Theorem C10_region_refuted : exists (p t : float), p = @P_MIN F /\
  @le F (#273.15) (@add F t (#273.15)) /\ @le F (@add F t (#273.15)) (#1073.15) /\
  ~ (exists r, (1 <= r <= 5)%Z /\ @call F 1 PT p t (from_i32 OR) = Some (float_of_Z r)).
Proof. exact pt_hole_refuted. Qed.
Print Assumptions C10_region_refuted.
Example C10_example :
  let p := @P_MIN F in let T := @add F 100%float (#273.15) in
  @lt F p (@p_saturation F T) /\ (@ltb F (@div F (@nabs F (@sub F p (@p_saturation F T))) (@p_saturation F T)) (#1.0e-6)) = false.
Proof. vm_compute. auto. Qed.

(* C11: on the saturation line pt answers 4.0 to every property. *)
Theorem C11_band : forall (L : Libm) fuel (p t : float), let N := FArith L in let T := @add N t (#273.15) in
  PrimFloat.is_nan p = false -> PrimFloat.is_nan T = false ->
  @le N (#0.000611212677444) p -> @le N p (#100.0) -> @le N (#273.15) T -> @lt N T (#647.096) ->
  @lt N (@div N (@nabs N (@sub N p (@p_saturation N T))) (@p_saturation N T)) (#1.0e-6) ->
  @call N fuel PT p t (from_i32 OR) = Some (float_of_Z 4) /\
  forall o, ~ is_input PT o -> o <> OR -> @call N fuel PT p t (from_i32 o) = Some (#4.0).
Proof. exact (fun L => @pt_band (FArith L) ordered emb (float_ordemb L) (float_constord L)). Qed.
Print Assumptions C11_band.
Example C11_example : let p := @p_saturation F (@add F 100%float (#273.15)) in
  @call F 1 PT p 100%float (from_i32 OH) = Some 4%float /\
  @lt F (@div F (@nabs F (@sub F p p)) p) (#1.0e-6).
Proof. vm_compute. auto. Qed.

(* C44, full statement: tv, th and ts accept every region-2 state pt accepts.  False
   for all states with 863.15 < T <= 1073.15: no v, h or s is accepted. *)
Theorem C44_hot : forall (L : Libm) fuel (f : api2) (t y : float), let N := FArith L in
  In f [TV; TH; TS] -> PrimFloat.is_nan (@add N t (#273.15)) = false ->
  @lt N (#863.15) (@add N t (#273.15)) -> @le N (@add N t (#273.15)) (#1073.15) ->
  @call N fuel f t y (from_i32 OR) = Some (float_of_Z (-9999)) \/
  (f = TS /\ @call N fuel f t y (from_i32 OR) = Some (float_of_Z (-2102))).
Proof. exact (fun L => @hot_region (FArith L) ordered emb (float_ordemb L) (float_constord L)). Qed.
Print Assumptions C44_hot.
Theorem C44_hot_refuted : exists (p t v h s : float),
  @call F 1 PT p t (from_i32 OR) = Some (float_of_Z 2) /\
  @call F 1 PT p t (from_i32 OV) = Some v /\ @call F 1 PT p t (from_i32 OH) = Some h /\
  @call F 1 PT p t (from_i32 OS) = Some s /\
  @call F 1 TV t v (from_i32 OR) = Some (float_of_Z (-9999)) /\
  @call F 1 TH t h (from_i32 OR) = Some (float_of_Z (-9999)) /\
  @call F 1 TS t s (from_i32 OR) = Some (float_of_Z (-9999)).
Proof. exact hot_refuted. Qed.
Print Assumptions C44_hot_refuted.
