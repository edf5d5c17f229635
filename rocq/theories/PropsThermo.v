(* Property theorems about the thermodynamic identities (C21-C31), in exact arithmetic.
   Regions 1, 2 and 5 through pt with the region given, region 3 through tv.
   is_derive is the derivative of Coquelicot: (f(x+h) - f(x))/h -> l. *)
From Coq Require Import ZArith List Bool Reals Lra.
From Coquelicot Require Import Coquelicot.
From Verif Require Import Num RealInst Constant Api Spec SpecThermo ThermoApi ThermoApi3 ThermoPts.
Open Scope R_scope.

(* the hypotheses below hold at concrete states of all four regions *)
Example thermo_example :
  (formula_domain 1 3 26.85 /\ formula_domain 2 1 300 /\ formula_domain 5 10 1226.85) /\
  (0 < ptR 1 OV 3 26.85 /\ ptR 1 ODVDP 3 26.85 < 0 /\ 0 < ptR 1 OCP 3 26.85 /\ 0 < cv_mayer 1 3 26.85 /\
   0 <= ptR 1 OV 3 26.85 * (ptR 1 OCP 3 26.85 / cv_mayer 1 3 26.85) / ptR 1 OKT 3 26.85) /\
  (0 < ptR 2 OV 1 300 /\ ptR 2 ODVDP 1 300 < 0 /\ 0 < ptR 2 OCP 1 300 /\ 0 < cv_mayer 2 1 300 /\
   0 <= ptR 2 OV 1 300 * (ptR 2 OCP 1 300 / cv_mayer 2 1 300) / ptR 2 OKT 1 300) /\
  (0 < ptR 5 OV 10 1226.85 /\ ptR 5 ODVDP 10 1226.85 < 0 /\ 0 < ptR 5 OCP 10 1226.85 /\ 0 < cv_mayer 5 10 1226.85 /\
   0 <= ptR 5 OV 10 1226.85 * (ptR 5 OCP 10 1226.85 / cv_mayer 5 10 1226.85) / ptR 5 OKT 10 1226.85).
Proof. exact (conj (conj dom1 (conj dom2 dom5)) (conj pt1 (conj pt2 pt5))). Qed.
Example thermo3_example : let t := 376.85 in let v := 0.002 in
  formula_domain3 t v /\ tvR ODVDP t v < 0 /\ 0 < tvR OP t v /\ 0 < tvR OCV t v /\ 0 < tvR OCP t v /\
  0 <= v * (tvR OCP t v / tvR OCV t v) / tvR OKT t v.
Proof. exact (conj dom3 pt3). Qed.
(* the region 3 call does return *)
Example thermo3_some : forall fuel o t v, exists x, @tv RArith fuel t v (from_pair (o, 3%Z)) = Some x /\
  @tv RArith 1 t v (from_pair (o, 3%Z)) = Some x.
Proof. exact tv3_some. Qed.

(* C21 *)
Theorem C21_volume : forall r p t, formula_domain r p t ->
  is_derive (fun p => ptR r OG p t) p (1000 * ptR r OV p t).
Proof. exact dG_dp. Qed.
Print Assumptions C21_volume.
Theorem C21_entropy : forall r p t, formula_domain r p t ->
  is_derive (fun t => ptR r OG p t) t (- ptR r OS p t).
Proof. exact dG_dt. Qed.
Print Assumptions C21_entropy.
Theorem C21_maxwell : forall r p t, formula_domain r p t ->
  is_derive (fun p => ptR r OS p t) p (- 1000 * ptR r ODVDT p t).
Proof. exact dS_dp. Qed.
Print Assumptions C21_maxwell.

(* C22 *)
Theorem C22_enthalpy : forall r p t, formula_domain r p t ->
  is_derive (fun t => ptR r OH p t) t (ptR r OCP p t).
Proof. exact dH_dt. Qed.
Print Assumptions C22_enthalpy.
Theorem C22_entropy : forall r p t, formula_domain r p t ->
  is_derive (fun t => ptR r OS p t) t (ptR r OCP p t / (t + 273.15)).
Proof. exact dS_dt. Qed.
Print Assumptions C22_entropy.

(* C23 *)
Theorem C23_dvdt : forall r p t, formula_domain r p t -> is_derive (fun t => ptR r OV p t) t (ptR r ODVDT p t).
Proof. exact dV_dt. Qed.
Print Assumptions C23_dvdt.
Theorem C23_dvdp : forall r p t, formula_domain r p t -> is_derive (fun p => ptR r OV p t) p (ptR r ODVDP p t).
Proof. exact dV_dp. Qed.
Print Assumptions C23_dvdp.

(* C24 *)
Theorem C24_energies : forall r p t, formula_domain r p t ->
  ptR r OH p t = ptR r OU p t + 1000 * p * ptR r OV p t /\
  ptR r OG p t = ptR r OH p t - (t + 273.15) * ptR r OS p t /\
  ptR r OF p t = ptR r OU p t - (t + 273.15) * ptR r OS p t /\
  ptR r OZ p t = 1000 * p * ptR r OV p t / (0.461526 * (t + 273.15)).
Proof. exact (fun r p t D => conj (id_h r p t D) (conj (id_g r p t D) (conj (id_f r p t D) (id_z r p t D)))). Qed.
Print Assumptions C24_energies.
Theorem C24_energies_region3 : forall t v, formula_domain3 t v ->
  tvR OH t v = tvR OU t v + 1000 * tvR OP t v * v /\
  tvR OG t v = tvR OH t v - (t + 273.15) * tvR OS t v /\
  tvR OF t v = tvR OU t v - (t + 273.15) * tvR OS t v /\
  tvR OZ t v = 1000 * tvR OP t v * v / (0.461526 * (t + 273.15)).
Proof. exact (fun t v D => conj (i3_h t v D) (conj (i3_g t v D) (conj (i3_f t v D) (i3_z t v D)))). Qed.
Print Assumptions C24_energies_region3.

(* C25 *)
Theorem C25_coefficients : forall r p t, formula_domain r p t -> ptR r OV p t <> 0 ->
  ptR r OEC p t = ptR r ODVDT p t / ptR r OV p t /\
  ptR r OKT p t = - ptR r ODVDP p t / ptR r OV p t /\
  ptR r OBETAP p t = 1 / (p * ptR r OV p t * ptR r OKT p t).
Proof. exact (fun r p t D H => conj (id_ec r p t D H) (conj (id_kt r p t D H) (id_be r p t D H))). Qed.
Print Assumptions C25_coefficients.
Theorem C25_pressure : forall r p t, formula_domain r p t -> ptR r OV p t <> 0 -> ptR r ODVDP p t <> 0 ->
  ptR r ODPDT p t = ptR r OEC p t / ptR r OKT p t /\
  ptR r ODPDT p t = - ptR r ODVDT p t / ptR r ODVDP p t /\
  ptR r OPC p t = ptR r ODPDT p t / p /\
  ptR r OALFAP p t = ptR r ODPDT p t / p.
Proof.
  exact (fun r p t D H H' => conj (id_dpdt r p t D H H') (conj (id_dpdt2 r p t D H') (conj (id_pc r p t D) (id_al r p t D H H')))).
Qed.
Print Assumptions C25_pressure.
Theorem C25_region3 : forall t v, formula_domain3 t v -> tvR ODVDP t v <> 0 -> tvR OP t v <> 0 ->
  tvR OEC t v = tvR ODVDT t v / v /\
  tvR OKT t v = - tvR ODVDP t v / v /\
  tvR OBETAP t v = 1 / (tvR OP t v * v * tvR OKT t v) /\
  tvR ODPDT t v = tvR OEC t v / tvR OKT t v /\
  tvR ODPDT t v = - tvR ODVDT t v / tvR ODVDP t v /\
  tvR OPC t v = tvR ODPDT t v / tvR OP t v /\
  tvR OALFAP t v = tvR ODPDT t v / tvR OP t v.
Proof.
  exact (fun t v D H P => conj (i3_ec t v D H) (conj (i3_kt t v D H) (conj (i3_be t v D H) (conj (i3_dpdt t v D H)
    (conj (i3_dpdt2 t v D H) (conj (i3_pc t v D P) (i3_al t v D H P))))))).
Qed.
Print Assumptions C25_region3.

(* C26; full statement: for r = 1, 2, 5 *)
Theorem C26_mayer : forall r p t, formula_domain r p t -> ptR r OV p t <> 0 -> ptR r ODVDP p t <> 0 -> r <> 5%Z ->
  ptR r OCP p t - ptR r OCV p t = 1000 * (t + 273.15) * ptR r OV p t * ptR r OEC p t ^ 2 / ptR r OKT p t.
Proof. exact id_mayer. Qed.
Print Assumptions C26_mayer.
Theorem C26_mayer_region3 : forall t v, formula_domain3 t v -> tvR ODVDP t v <> 0 ->
  tvR OCP t v - tvR OCV t v = 1000 * (t + 273.15) * v * tvR OEC t v ^ 2 / tvR OKT t v.
Proof. exact i3_mayer. Qed.
Print Assumptions C26_mayer_region3.
Theorem C26_mayer_region5_refuted : exists p t, formula_domain 5 p t /\ ptR 5 OV p t <> 0 /\ ptR 5 ODVDP p t <> 0 /\
  ptR 5 OCP p t - ptR 5 OCV p t <> 1000 * (t + 273.15) * ptR 5 OV p t * ptR 5 OEC p t ^ 2 / ptR 5 OKT p t.
Proof. exact mayer5_refuted. Qed.
Print Assumptions C26_mayer_region5_refuted.
(* what region 5 returns: the division by c is applied to c_p as well *)
Theorem C26_region5 : forall p t, formula_domain 5 p t -> ptR 5 OV p t <> 0 -> ptR 5 ODVDP p t <> 0 ->
  let c := 1000 * p ^ 2 * ptR 5 OV p t * ptR 5 OKT p t / (0.461526 * (t + 273.15)) in
  ptR 5 OCV p t = (ptR 5 OCP p t - c * (ptR 5 OCP p t - cv_mayer 5 p t)) / c.
Proof. exact cv_reg5. Qed.
Print Assumptions C26_region5.

(* C27; in regions 1 and 2 cv_mayer is OCV by C26 *)
Theorem C27_sound : forall r p t, formula_domain r p t ->
  ptR r OV p t <> 0 -> ptR r ODVDP p t <> 0 -> ptR r OCP p t <> 0 -> cv_mayer r p t <> 0 ->
  0 <= ptR r OV p t * (ptR r OCP p t / cv_mayer r p t) / ptR r OKT p t ->
  ptR r OW p t ^ 2 = 1000000 * ptR r OV p t * (ptR r OCP p t / cv_mayer r p t) / ptR r OKT p t.
Proof. exact id_w. Qed.
Print Assumptions C27_sound.
Theorem C27_sound_cv : forall r p t, formula_domain r p t -> r <> 5%Z ->
  ptR r OV p t <> 0 -> ptR r ODVDP p t <> 0 -> ptR r OCP p t <> 0 -> ptR r OCV p t <> 0 ->
  0 <= ptR r OV p t * (ptR r OCP p t / ptR r OCV p t) / ptR r OKT p t ->
  ptR r OW p t ^ 2 = 1000000 * ptR r OV p t * (ptR r OCP p t / ptR r OCV p t) / ptR r OKT p t.
Proof. exact id_w_cv. Qed.
Print Assumptions C27_sound_cv.
Theorem C27_sound_region3 : forall t v, formula_domain3 t v -> tvR ODVDP t v <> 0 -> tvR OCV t v <> 0 ->
  0 <= v * (tvR OCP t v / tvR OCV t v) / tvR OKT t v ->
  tvR OW t v ^ 2 = 1000000 * v * (tvR OCP t v / tvR OCV t v) / tvR OKT t v.
Proof. exact i3_w. Qed.
Print Assumptions C27_sound_region3.
Theorem C27_isentropic : forall r p t, formula_domain r p t ->
  ptR r OKS p t = ptR r OW p t ^ 2 / (1000000 * p * ptR r OV p t).
Proof. exact id_ks. Qed.
Print Assumptions C27_isentropic.
Theorem C27_isentropic_region3 : forall t v, formula_domain3 t v ->
  tvR OKS t v = tvR OW t v ^ 2 / (1000000 * tvR OP t v * v).
Proof. exact i3_ks. Qed.
Print Assumptions C27_isentropic_region3.

(* C28; full statement for OIJTC: is_derive (fun p => ptR r OH p t) p (ptR r OIJTC p t).
   The returned value is a thousandth of the derivative. *)
Theorem C28_enthalpy : forall r p t, formula_domain r p t ->
  is_derive (fun p => ptR r OH p t) p (1000 * ptR r OIJTC p t).
Proof. exact dH_dp. Qed.
Print Assumptions C28_enthalpy.
Theorem C28_ijtc_refuted : exists p t, formula_domain 1 p t /\
  ~ is_derive (fun p => ptR 1 OH p t) p (ptR 1 OIJTC p t).
Proof. exact ijtc_refuted. Qed.
Print Assumptions C28_ijtc_refuted.
Theorem C28_jtc : forall r p t, formula_domain r p t -> ptR r OV p t <> 0 -> ptR r OCP p t <> 0 ->
  is_derive (fun p => ptR r OH p t) p (- (ptR r OJTC p t * ptR r OCP p t)).
Proof. exact jtc_derive. Qed.
Print Assumptions C28_jtc.
Theorem C28_region3 : forall t v, formula_domain3 t v -> tvR ODVDP t v <> 0 -> tvR OCP t v <> 0 ->
  tvR OJTC t v * tvR OCP t v = 1000 * ((t + 273.15) * tvR ODVDT t v - v) /\
  1000 * tvR OIJTC t v = - (tvR OJTC t v * tvR OCP t v) /\
  is_derive (fun v => tvR OH t v) v (1000 * tvR OIJTC t v / tvR ODVDP t v).
Proof. exact (fun t v D H C => conj (i3_j t v D H C) (conj (i3_ij t v C) (H_v t v D H C))). Qed.
Print Assumptions C28_region3.

(* C29 *)
Theorem C29_exergy : forall r p t, formula_domain r p t -> ptR r OE p t = ptR r OH p t - 273.16 * ptR r OS p t.
Proof. exact id_e. Qed.
Print Assumptions C29_exergy.
Theorem C29_region3 : forall t v, formula_domain3 t v ->
  tvR OE t v = tvR OH t v - 273.16 * tvR OS t v
    + (t + 273.15 - 273.16) * (1 - 647.096 / (t + 273.15)) * (tvR OF t v / (t + 273.15)).
Proof. exact i3_e. Qed.
Print Assumptions C29_region3.
Theorem C29_region3_refuted : exists t v, formula_domain3 t v /\ tvR OE t v <> tvR OH t v - 273.16 * tvR OS t v.
Proof. exact exergy3_refuted. Qed.
Print Assumptions C29_region3_refuted.

(* C30 *)
Theorem C30_helmholtz : forall t v, formula_domain3 t v ->
  is_derive (fun v => tvR OF t v) v (- (1000 * tvR OP t v)) /\
  is_derive (fun t => tvR OF t v) t (- tvR OS t v) /\
  is_derive (fun t => tvR OU t v) t (tvR OCV t v) /\
  is_derive (fun t => tvR OS t v) t (tvR OCV t v / (t + 273.15)) /\
  is_derive (fun t => tvR OP t v) t (tvR ODPDT t v).
Proof. exact (fun t v D => conj (F_v t v D) (conj (F_t t v D) (conj (U_t t v D) (conj (S_t t v D) (P_t t v D))))). Qed.
Print Assumptions C30_helmholtz.
Theorem C30_dvdp : forall t v, formula_domain3 t v -> tvR ODVDP t v <> 0 ->
  is_derive (fun v => tvR OP t v) v (/ tvR ODVDP t v).
Proof. exact P_v. Qed.
Print Assumptions C30_dvdp.

(* C31 *)
Theorem C31_fugacity : forall r p t, formula_domain r p t ->
  ptR r OFU p t = p * ptR r OFI p t /\ 0 < ptR r OFI p t.
Proof. exact (fun r p t D => conj (id_fu r p t D) (id_fi r p t D)). Qed.
Print Assumptions C31_fugacity.
Theorem C31_fugacity_region3 : forall t v, formula_domain3 t v ->
  tvR OFU t v = tvR OP t v * tvR OFI t v /\ 0 < tvR OFI t v.
Proof. exact (fun t v _ => conj (i3_fu t v) (i3_fi t v)). Qed.
Print Assumptions C31_fugacity_region3.
