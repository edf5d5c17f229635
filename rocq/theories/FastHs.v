(* Binary64 with the test library, made fast to evaluate: the sums over coefficient tables
   with every decimal converted once, and one round of the pressure search of hs2T_reg4 built
   from them.  Each is proved equal to the function of the model. *)
From Coq Require Import ZArith List Bool Floats Lia PArith.
From Verif Require Import Num Types Algo Region Constant R4Sat Reg1 Reg2 Reg3Td Boundaries Reg1Back Reg2Back Reg3Sub Reg3V Reg3 Reg4 FloatInst.
Import ListNotations.
Notation FA := (FArith RefLibm).

Ltac conv t := match t with
  | context C [@lit FA ?d] => let v := eval vm_compute in (@lit FA d) in let t' := context C [v] in conv t'
  | context C [@ofZ FA ?d] => let v := eval vm_compute in (@ofZ FA d) in let t' := context C [v] in conv t'
  | _ => t end.
Ltac fast t := let t := eval cbv beta iota zeta delta [
   region1_gfe_IJn region2_gfe_IJn region2_gfe_n0 region2_gfe_J0 region3_hfe_IJn pT2v_3c_IJn pT2v_3t_IJn
   ph2v_3a_reg3_IJn ph2v_3b_reg3_IJn region4_sat_pT_n T_saturation gamma0_tau_reg2 p2h_3ab p2h_3ab_n INVALID_VALUE
   poly_powi poly_j_powi_steps polys_0_j_powi_steps polys_i_j_powi_steps poly_powi_steps poly_i_powi_steps
   for_steps fold_left IJn_at nth seq row_n row_i row_j fst snd Nat.sub
   Z.sub Z.add Z.opp Z.pos_sub Pos.add Pos.sub Pos.sub_mask Pos.succ Pos.pred_double Pos.add_carry
   Z.double Z.succ_double Z.pred_double Z.mul Pos.mul] in t in
  let t := conv t in
  let t := eval cbv beta delta [num add sub mul div opp powi powf nln nexp nsqrt nabs ltb leb eqb FArith l_powi l_powf l_ln l_exp RefLibm] in t in
  let t := eval cbv beta iota in t in exact t.

(* region 1: src/r1/region1_gfe.rs *)
Definition a1 : float -> float -> float := ltac:(fast (fun vi vj => @poly_j_powi_steps FA vi vj region1_gfe_IJn [(0%nat, 17%nat); (17%nat, 34%nat)])).
Lemma a1_eq vi vj : @poly_j_powi_steps FA vi vj region1_gfe_IJn [(0%nat, 17%nat); (17%nat, 34%nat)] = a1 vi vj.
Proof. reflexivity. Qed.
Definition b1 : float -> float -> float * float := ltac:(fast (fun vi vj => @polys_0_j_powi_steps FA vi vj region1_gfe_IJn [(0%nat, 16%nat); (16%nat, 34%nat)])).
Lemma b1_eq vi vj : @polys_0_j_powi_steps FA vi vj region1_gfe_IJn [(0%nat, 16%nat); (16%nat, 34%nat)] = b1 vi vj.
Proof. reflexivity. Qed.
(* region 2: src/r2/region2_gfe.rs *)
Definition a2 : float -> float -> float := ltac:(fast (fun vi vj => @poly_j_powi_steps FA vi vj region2_gfe_IJn [(0%nat, 13%nat); (13%nat, 26%nat); (26%nat, 43%nat)])).
Lemma a2_eq vi vj : @poly_j_powi_steps FA vi vj region2_gfe_IJn [(0%nat, 13%nat); (13%nat, 26%nat); (26%nat, 43%nat)] = a2 vi vj.
Proof. reflexivity. Qed.
Definition b2 : float -> float -> float * float := ltac:(fast (fun vi vj => @polys_0_j_powi_steps FA vi vj region2_gfe_IJn [(0%nat, 13%nat); (13%nat, 26%nat); (26%nat, 43%nat)])).
Lemma b2_eq vi vj : @polys_0_j_powi_steps FA vi vj region2_gfe_IJn [(0%nat, 13%nat); (13%nat, 26%nat); (26%nat, 43%nat)] = b2 vi vj.
Proof. reflexivity. Qed.
Definition c2 : float -> float := ltac:(fast (fun tau => @gamma0_tau_reg2 FA tau)).
Lemma c2_eq tau : @gamma0_tau_reg2 FA tau = c2 tau. Proof. reflexivity. Qed.
(* region 3: src/r3/region3_hfe.rs, region3_v_subregion_pT.rs, region3_Tv_phps.rs *)
Definition a3 : float -> float -> float * float := ltac:(fast (fun vi vj => @polys_i_j_powi_steps FA vi vj region3_hfe_IJn [(0%nat, 16%nat); (16%nat, 32%nat); (32%nat, 39%nat)])).
Lemma a3_eq vi vj : @polys_i_j_powi_steps FA vi vj region3_hfe_IJn [(0%nat, 16%nat); (16%nat, 32%nat); (32%nat, 39%nat)] = a3 vi vj.
Proof. reflexivity. Qed.
Definition b3 : float -> float -> float * float := ltac:(fast (fun vi vj => @polys_0_j_powi_steps FA vi vj region3_hfe_IJn [(0%nat, 16%nat); (16%nat, 32%nat); (32%nat, 39%nat)])).
Lemma b3_eq vi vj : @polys_0_j_powi_steps FA vi vj region3_hfe_IJn [(0%nat, 16%nat); (16%nat, 32%nat); (32%nat, 39%nat)] = b3 vi vj.
Proof. reflexivity. Qed.
Definition w3c : float -> float -> float := ltac:(fast (fun vi vj => @poly_powi FA vi vj pT2v_3c_IJn)).
Lemma w3c_eq vi vj : @poly_powi FA vi vj pT2v_3c_IJn = w3c vi vj. Proof. reflexivity. Qed.
Definition w3t : float -> float -> float := ltac:(fast (fun vi vj => @poly_powi FA vi vj pT2v_3t_IJn)).
Lemma w3t_eq vi vj : @poly_powi FA vi vj pT2v_3t_IJn = w3t vi vj. Proof. reflexivity. Qed.
Definition y3a : float -> float -> float := ltac:(fast (fun vi vj => @poly_powi FA vi vj ph2v_3a_reg3_IJn)).
Lemma y3a_eq vi vj : @poly_powi FA vi vj ph2v_3a_reg3_IJn = y3a vi vj. Proof. reflexivity. Qed.
Definition y3b : float -> float -> float := ltac:(fast (fun vi vj => @poly_powi FA vi vj ph2v_3b_reg3_IJn)).
Lemma y3b_eq vi vj : @poly_powi FA vi vj ph2v_3b_reg3_IJn = y3b vi vj. Proof. reflexivity. Qed.

(* the property functions (src/r1/region1_pT.rs:34-46, src/r2/region2_pT.rs:29-52,
   src/r3/region3_Td.rs:31-45, src/r4/region4_sat_pT.rs:39-54) *)
Open Scope float_scope.
Definition h1f (p T : float) : float :=
  let tau := 1386 / T in let pi := p / 16.53 in 0.461526 * T * tau * a1 (7.1 - pi) (tau - 1.222).
Lemma h1f_eq p T : @pT2h_reg1 FA p T = h1f p T.
Proof. unfold pT2h_reg1, gamma_tau_reg1. cbv zeta. rewrite a1_eq. reflexivity. Qed.
Definition s1f (p T : float) : float :=
  let tau := 1386 / T in let pi := p / 16.53 in
  let (v, d) := b1 (7.1 - pi) (tau - 1.222) in 0.461526 * (tau * d - v).
Lemma s1f_eq p T : @pT2s_reg1 FA p T = s1f p T.
Proof. unfold pT2s_reg1, polys_0_j_powi_reg1. cbv zeta. rewrite b1_eq. reflexivity. Qed.
Definition h2f (p T : float) : float :=
  let tau := 540 / T in 0.461526 * 540 * (c2 tau + a2 p (tau - 0.5)).
Lemma h2f_eq p T : @pT2h_reg2 FA p T = h2f p T.
Proof. unfold pT2h_reg2, gammar_tau_reg2. cbv zeta. rewrite a2_eq, c2_eq. reflexivity. Qed.
Definition d2 : float -> float -> float * float := ltac:(fast (fun (l tau : @num FA) =>
  let '(_, g, gt) := fold_left (fun '(gamma0_item, gamma0, gamma0_tau) i =>
      let gamma0_item := @mul FA (nth i region2_gfe_n0 (@lit FA 0.0%dec)) (@powi FA tau (nth i region2_gfe_J0 0%Z)) in
      let gamma0 := @add FA gamma0 gamma0_item in
      let gamma0_tau := @add FA gamma0_tau (@mul FA gamma0_item (@ofZ FA (nth i region2_gfe_J0 0%Z))) in
      (gamma0_item, gamma0, gamma0_tau)) (seq 0 9) (@lit FA 0.0%dec, l, @lit FA 0.0%dec) in (g, gt))).
Definition s2f (p T : float) : float :=
  let tau := 540 / T in
  let (g0, g0t) := d2 (ref_ln p) tau in
  let (g, gt) := b2 p (tau - 0.5) in
  0.461526 * (tau * (g0t / tau + gt) - (g0 + g)).
Lemma s2f_eq p T : @pT2s_reg2 FA p T = s2f p T.
Proof. unfold pT2s_reg2, polys_0_j_powi_reg2. cbv zeta. rewrite b2_eq. reflexivity. Qed.
Definition h3f (T d : float) : float :=
  let tau := 647.096 / T in let delta := d / 322 in
  let (a, b) := a3 delta tau in 0.461526 * T * (tau * b + delta * (a + 0.10658070028513e1 / delta)).
Lemma h3f_eq T d : @Td2h_reg3 FA T d = h3f T d.
Proof. unfold Td2h_reg3, polys_i_j_powi_reg3. cbv zeta. rewrite a3_eq. unfold h3f. destruct (a3 _ _). reflexivity. Qed.
Definition s3f (T d : float) : float :=
  let tau := 647.096 / T in let delta := d / 322 in
  let (a, b) := b3 delta tau in 0.461526 * (tau * b - (a + 0.10658070028513e1 * ref_ln delta)).
Lemma s3f_eq T d : @Td2s_reg3 FA T d = s3f T d.
Proof. unfold Td2s_reg3, polys_0_j_powi_reg3. cbv zeta. rewrite b3_eq. unfold s3f. destruct (b3 _ _). reflexivity. Qed.
Definition tsf (p : float) : float :=
  if ((p <? 0.000611212677) || (22.064 <? p))%bool then -9999 else
  let bet := ref_powf p 0.25 in
  let eco := bet * (bet + -0.17073846940092E+02) + 0.14915108613530E+02 in
  let fco := bet * (0.11670521452767E+04 * bet + 0.12020824702470E+05) + -0.48232657361591E+04 in
  let gco := bet * (-0.72421316703206E+06 * bet + -0.32325550322333E+07) + 0.40511340542057E+06 in
  let temp := fco * fco - 4 * eco * gco in
  let dco := 2 * gco / (- fco - PrimFloat.sqrt temp) in
  let n := 0.65017534844798E+03 in
  let temp := (n + dco) * (n + dco) - 4 * (-0.23855557567849E+00 + n * dco) in
  0.5 * (n + dco - PrimFloat.sqrt temp).
Lemma tsf_eq p : @T_saturation FA p = tsf p.
Proof. reflexivity. Qed.
(* saturated volumes in region 3 below 19 MPa (src/r3/region3_v_pT.rs:160-186); the model's
   function elsewhere *)
Definition vlf (p T : float) : float :=
  if p <? 19.0088 then ref_powf (w3c (ref_powf (p / 40 - 0.259) 1) (ref_powf (T / 690 - 0.903) 1)) 1 * 0.0022
  else @pT2v_sat_reg3 FA p T 0.
Lemma vlf_eq p T : @pT2v_sat_reg3 FA p T (@lit FA 0.0%dec) = vlf p T.
Proof.
  unfold vlf. change (@lit FA 0.0%dec) with 0. destruct (p <? 19.0088) eqn:E; [|reflexivity].
  unfold pT2v_sat_reg3.
  change (@eqb FA 0 (@lit FA 0.0%dec)) with true. change (@ltb FA p (@lit FA 19.0088%dec)) with (p <? 19.0088). rewrite E.
  change (@pT2v_3subreg FA p T sub_c) with (@pT2v_3c FA p T). unfold pT2v_3c, pT2v_sum. cbv zeta. rewrite w3c_eq. reflexivity.
Qed.
Definition vvf (p T : float) : float :=
  if p <? 20.5 then ref_powf (w3t (ref_powf (p / 20 - 0.803) 1) (ref_powf (T / 650 - 1.02) 1)) 1 * 0.0088
  else @pT2v_sat_reg3 FA p T 1.
Lemma vvf_eq p T : @pT2v_sat_reg3 FA p T (@lit FA 1.0%dec) = vvf p T.
Proof.
  unfold vvf. change (@lit FA 1.0%dec) with 1. destruct (p <? 20.5) eqn:E; [|reflexivity].
  unfold pT2v_sat_reg3.
  change (@eqb FA 1 (@lit FA 0.0%dec)) with false. change (@ltb FA p (@lit FA 20.5%dec)) with (p <? 20.5). rewrite E.
  change (@pT2v_3subreg FA p T sub_t) with (@pT2v_3t FA p T). unfold pT2v_3t, pT2v_sum. cbv zeta. rewrite w3t_eq. reflexivity.
Qed.
(* saturated enthalpies (src/r4/region4_pTx.rs:14-81) *)
Definition hlf (p : float) : float :=
  let T := tsf p in
  if ((0.000611212677444 <=? p) && (p <=? 16.5291642526045))%bool then h1f p T
  else h3f T (1 / (if PrimFloat.abs (p - 22.064) <? 1e-6 then 1 / 322 else vlf p T)).
Lemma hlf_eq p : @p2sat_water FA p OH = hlf p.
Proof.
  unfold p2sat_water, hlf. cbv zeta. change (Z.eqb OH OP) with false. change (Z.eqb OH OT) with false.
  change (Z.eqb OH OV) with false. change (Z.eqb OH OD) with false. cbv iota.
  rewrite tsf_eq, vlf_eq. change (@pT_reg1 FA p (tsf p) OH) with (@pT2h_reg1 FA p (tsf p)). rewrite h1f_eq.
  match goal with |- context [@Td_reg3 FA ?T ?d OH] => change (@Td_reg3 FA T d OH) with (@Td2h_reg3 FA T d) end. rewrite h3f_eq.
  reflexivity.
Qed.
Definition hvf (p : float) : float :=
  let T := tsf p in
  if ((0.000611212677444 <=? p) && (p <=? 16.5291642526045))%bool then h2f p T
  else h3f T (1 / (if PrimFloat.abs (p - 22.064) <? 1e-6 then 1 / 322 else vvf p T)).
Lemma hvf_eq p : @p2sat_steam FA p OH = hvf p.
Proof.
  unfold p2sat_steam, hvf. cbv zeta. change (Z.eqb OH OP) with false. change (Z.eqb OH OT) with false.
  change (Z.eqb OH OV) with false. change (Z.eqb OH OD) with false. cbv iota.
  rewrite tsf_eq, vvf_eq. change (@pT_reg2 FA p (tsf p) OH) with (@pT2h_reg2 FA p (tsf p)). rewrite h2f_eq.
  match goal with |- context [@Td_reg3 FA ?T ?d OH] => change (@Td_reg3 FA T d OH) with (@Td2h_reg3 FA T d) end. rewrite h3f_eq.
  reflexivity.
Qed.
(* v(p,h) of region 3 (src/r3/region3_Tv_phps.rs:9-16, 198-205) *)
Definition vphf (p h : float) : float :=
  if h <=? (0.201464004206875E+04 + p / 1 * (0.374696550136983E+01 + p / 1 * (-0.219921901054187E-01 + 0.875131686009950E-04 * (p / 1)))) * 1
  then 0.0028 * y3a (p / 100 + 0.128) (h / 2100 - 0.727)
  else 0.0088 * y3b (p / 100 + 0.0661) (h / 2800 - 0.720).
Lemma vphf_eq p h : @ph_reg3 FA p h OV = vphf p h.
Proof.
  change (@ph_reg3 FA p h OV) with (@ph2v_reg3 FA p h). unfold ph2v_reg3, ph2v_3a_reg3, ph2v_3b_reg3. cbv zeta.
  rewrite y3a_eq, y3b_eq. reflexivity.
Qed.
(* the mixture entropy (src/r4/region4_T_hs.rs:121-136) and one round of the second loop
   (lines 120-145): pressure, entropy and the two bounds *)
Definition sssf (h p : float) : float :=
  let T := tsf p in
  let h1 := hlf p in let h2 := hvf p in
  let x := (h - h1) / (h2 - h1) in
  let '(sv, sl) := if p <? 16.5291642526045 then (s2f p T, s1f p T)
    else (s3f T (1 / vphf p h2), s3f T (1 / vphf p h1)) in
  x * sv + (1 - x) * sl.
Lemma sssf_eq h p : @hs2T_reg4_sss FA h p = sssf h p.
Proof.
  unfold hs2T_reg4_sss, ph_reg4, sssf. cbv zeta. change (Z.eqb OX OX) with true. cbv iota.
  rewrite tsf_eq. replace (@p2sat_water FA p OH) with (hlf p) by (symmetry; exact (hlf_eq p)). replace (@p2sat_steam FA p OH) with (hvf p) by (symmetry; exact (hvf_eq p)).
  change (@ltb FA p (@Ps_623 FA)) with (p <? 16.5291642526045). destruct (p <? 16.5291642526045).
  - rewrite s2f_eq, s1f_eq. reflexivity.
  - rewrite !vphf_eq. rewrite !s3f_eq. reflexivity.
Qed.
