(* Generated by tools/validate.py.  Tests of the translation, not proofs: the model in binary64,
   with the reference libm of FloatInst, reproduces the verification values of the IAPWS releases
   (the tables of /repo/tests/common/mod.rs and some the repository does not test). *)
From Coq Require Import ZArith List Bool Floats. Import ListNotations.
From Verif Require Import Num FloatInst Constant R4Sat Transport Reg1 Reg2 Reg3Td Reg5 Boundaries Reg1Back Reg2Back Reg3Sub Reg3V Reg3 Reg4 Reg5Back Region Api.
Local Instance A : Arith := FArith RefLibm.
Definition F x : float := float_of_dec x.
Definition ok (x y tol : float) : bool := PrimFloat.leb (PrimFloat.abs (x - y)) (tol * PrimFloat.abs y).

Example conform_pT2v_reg1 : forallb (fun b => b) [
  ok (pT2v_reg1 (F (3.0)%dec) (F (300.0)%dec)) (F (0.100215168e-2)%dec) (F (2e-8)%dec);
  ok (pT2v_reg1 (F (80.0)%dec) (F (300.0)%dec)) (F (0.971180894e-3)%dec) (F (2e-8)%dec);
  ok (pT2v_reg1 (F (3.0)%dec) (F (500.0)%dec)) (F (0.120241800e-2)%dec) (F (2e-8)%dec)] = true.
Proof. vm_compute. reflexivity. Qed.
Example conform_pT2h_reg1 : forallb (fun b => b) [
  ok (pT2h_reg1 (F (3.0)%dec) (F (300.0)%dec)) (F (0.115331273e+3)%dec) (F (2e-8)%dec);
  ok (pT2h_reg1 (F (80.0)%dec) (F (300.0)%dec)) (F (0.184142828e+3)%dec) (F (2e-8)%dec);
  ok (pT2h_reg1 (F (3.0)%dec) (F (500.0)%dec)) (F (0.975542239e+3)%dec) (F (2e-8)%dec)] = true.
Proof. vm_compute. reflexivity. Qed.
Example conform_pT2s_reg1 : forallb (fun b => b) [
  ok (pT2s_reg1 (F (3.0)%dec) (F (300.0)%dec)) (F (0.392294792)%dec) (F (2e-8)%dec);
  ok (pT2s_reg1 (F (80.0)%dec) (F (300.0)%dec)) (F (0.368563852)%dec) (F (2e-8)%dec);
  ok (pT2s_reg1 (F (3.0)%dec) (F (500.0)%dec)) (F (0.258041912e1)%dec) (F (2e-8)%dec)] = true.
Proof. vm_compute. reflexivity. Qed.
Example conform_pT2u_reg1 : forallb (fun b => b) [
  ok (pT2u_reg1 (F (3.0)%dec) (F (300.0)%dec)) (F (0.112324818e3)%dec) (F (2e-8)%dec);
  ok (pT2u_reg1 (F (80.0)%dec) (F (300.0)%dec)) (F (0.106448356e3)%dec) (F (2e-8)%dec);
  ok (pT2u_reg1 (F (3.0)%dec) (F (500.0)%dec)) (F (0.971934985e3)%dec) (F (2e-8)%dec)] = true.
Proof. vm_compute. reflexivity. Qed.
Example conform_pT2cp_reg1 : forallb (fun b => b) [
  ok (pT2cp_reg1 (F (3.0)%dec) (F (300.0)%dec)) (F (0.417301218e1)%dec) (F (2e-8)%dec);
  ok (pT2cp_reg1 (F (80.0)%dec) (F (300.0)%dec)) (F (0.401008987e1)%dec) (F (2e-8)%dec);
  ok (pT2cp_reg1 (F (3.0)%dec) (F (500.0)%dec)) (F (0.465580682e1)%dec) (F (2e-8)%dec)] = true.
Proof. vm_compute. reflexivity. Qed.
Example conform_pT2w_reg1 : forallb (fun b => b) [
  ok (pT2w_reg1 (F (3.0)%dec) (F (300.0)%dec)) (F (0.150773921e4)%dec) (F (2e-8)%dec);
  ok (pT2w_reg1 (F (80.0)%dec) (F (300.0)%dec)) (F (0.163469054e4)%dec) (F (2e-8)%dec);
  ok (pT2w_reg1 (F (3.0)%dec) (F (500.0)%dec)) (F (0.124071337e4)%dec) (F (2e-8)%dec)] = true.
Proof. vm_compute. reflexivity. Qed.
Example conform_pT2v_reg2 : forallb (fun b => b) [
  ok (pT2v_reg2 (F (0.0035)%dec) (F (300.0)%dec)) (F (0.394913866E+02)%dec) (F (2e-8)%dec);
  ok (pT2v_reg2 (F (0.0035)%dec) (F (700.0)%dec)) (F (0.923015898E+02)%dec) (F (2e-8)%dec);
  ok (pT2v_reg2 (F (30.0)%dec) (F (700.0)%dec)) (F (0.542946619E-02)%dec) (F (2e-8)%dec)] = true.
Proof. vm_compute. reflexivity. Qed.
Example conform_pT2h_reg2 : forallb (fun b => b) [
  ok (pT2h_reg2 (F (0.0035)%dec) (F (300.0)%dec)) (F (0.254991145E+04)%dec) (F (2e-8)%dec);
  ok (pT2h_reg2 (F (0.0035)%dec) (F (700.0)%dec)) (F (0.333568375E+04)%dec) (F (2e-8)%dec);
  ok (pT2h_reg2 (F (30.0)%dec) (F (700.0)%dec)) (F (0.263149474E+04)%dec) (F (2e-8)%dec)] = true.
Proof. vm_compute. reflexivity. Qed.
Example conform_pT2s_reg2 : forallb (fun b => b) [
  ok (pT2s_reg2 (F (0.0035)%dec) (F (300.0)%dec)) (F (0.852238967E+01)%dec) (F (2e-8)%dec);
  ok (pT2s_reg2 (F (0.0035)%dec) (F (700.0)%dec)) (F (0.101749996E+02)%dec) (F (2e-8)%dec);
  ok (pT2s_reg2 (F (30.0)%dec) (F (700.0)%dec)) (F (0.517540298E+01)%dec) (F (2e-8)%dec)] = true.
Proof. vm_compute. reflexivity. Qed.
Example conform_pT2u_reg2 : forallb (fun b => b) [
  ok (pT2u_reg2 (F (0.0035)%dec) (F (300.0)%dec)) (F (0.241169160E+04)%dec) (F (2e-8)%dec);
  ok (pT2u_reg2 (F (0.0035)%dec) (F (700.0)%dec)) (F (0.301262819E+04)%dec) (F (2e-8)%dec);
  ok (pT2u_reg2 (F (30.0)%dec) (F (700.0)%dec)) (F (0.246861076E+04)%dec) (F (2e-8)%dec)] = true.
Proof. vm_compute. reflexivity. Qed.
Example conform_pT2cp_reg2 : forallb (fun b => b) [
  ok (pT2cp_reg2 (F (0.0035)%dec) (F (300.0)%dec)) (F (0.191300162E+01)%dec) (F (2e-8)%dec);
  ok (pT2cp_reg2 (F (0.0035)%dec) (F (700.0)%dec)) (F (0.208141274E+01)%dec) (F (2e-8)%dec);
  ok (pT2cp_reg2 (F (30.0)%dec) (F (700.0)%dec)) (F (0.103505092E+02)%dec) (F (2e-8)%dec)] = true.
Proof. vm_compute. reflexivity. Qed.
Example conform_pT2w_reg2 : forallb (fun b => b) [
  ok (pT2w_reg2 (F (0.0035)%dec) (F (300.0)%dec)) (F (0.427920172E+03)%dec) (F (2e-8)%dec);
  ok (pT2w_reg2 (F (0.0035)%dec) (F (700.0)%dec)) (F (0.644289068E+03)%dec) (F (2e-8)%dec);
  ok (pT2w_reg2 (F (30.0)%dec) (F (700.0)%dec)) (F (0.480386523E+03)%dec) (F (2e-8)%dec)] = true.
Proof. vm_compute. reflexivity. Qed.
Example conform_ph2T_reg1 : forallb (fun b => b) [
  ok (ph2T_reg1 (F (3.0)%dec) (F (0.115331273e+3)%dec)) (F (300.0)%dec) (F (1e-4)%dec);
  ok (ph2T_reg1 (F (80.0)%dec) (F (0.184142828e+3)%dec)) (F (300.0)%dec) (F (1e-4)%dec);
  ok (ph2T_reg1 (F (3.0)%dec) (F (0.975542239e+3)%dec)) (F (500.0)%dec) (F (1e-4)%dec)] = true.
Proof. vm_compute. reflexivity. Qed.
Example conform_ps2T_reg1 : forallb (fun b => b) [
  ok (ps2T_reg1 (F (3.0)%dec) (F (0.392294792)%dec)) (F (300.0)%dec) (F (1e-4)%dec);
  ok (ps2T_reg1 (F (80.0)%dec) (F (0.368563852)%dec)) (F (300.0)%dec) (F (1e-4)%dec);
  ok (ps2T_reg1 (F (3.0)%dec) (F (0.258041912e1)%dec)) (F (500.0)%dec) (F (1e-4)%dec)] = true.
Proof. vm_compute. reflexivity. Qed.
Example conform_hs2p_reg1 : forallb (fun b => b) [
  ok (hs2p_reg1 (F (0.115331273e+3)%dec) (F (0.392294792)%dec)) (F (3.0)%dec) (F (4e-3)%dec);
  ok (hs2p_reg1 (F (0.184142828e+3)%dec) (F (0.368563852)%dec)) (F (80.0)%dec) (F (4e-3)%dec);
  ok (hs2p_reg1 (F (0.975542239e+3)%dec) (F (0.258041912e1)%dec)) (F (3.0)%dec) (F (4e-3)%dec)] = true.
Proof. vm_compute. reflexivity. Qed.
Example conform_ph2T_reg2 : forallb (fun b => b) [
  ok (ph2T_reg2 (F (0.001)%dec) (F (3000.0)%dec)) (F (0.534433241E+03)%dec) (F (2e-8)%dec);
  ok (ph2T_reg2 (F (3.0)%dec) (F (3000.0)%dec)) (F (0.575373370E+03)%dec) (F (2e-8)%dec);
  ok (ph2T_reg2 (F (3.0)%dec) (F (4000.0)%dec)) (F (0.101077577E+04)%dec) (F (2e-8)%dec);
  ok (ph2T_reg2 (F (5.0)%dec) (F (3500.0)%dec)) (F (0.801299102E+03)%dec) (F (2e-8)%dec);
  ok (ph2T_reg2 (F (5.0)%dec) (F (4000.0)%dec)) (F (0.101531583E+04)%dec) (F (2e-8)%dec);
  ok (ph2T_reg2 (F (25.0)%dec) (F (3500.0)%dec)) (F (0.875279054E+03)%dec) (F (2e-8)%dec);
  ok (ph2T_reg2 (F (40.0)%dec) (F (2700.0)%dec)) (F (0.743056411E+03)%dec) (F (2e-8)%dec);
  ok (ph2T_reg2 (F (60.0)%dec) (F (2700.0)%dec)) (F (0.791137067E+03)%dec) (F (2e-8)%dec);
  ok (ph2T_reg2 (F (60.0)%dec) (F (3200.0)%dec)) (F (0.882756860E+03)%dec) (F (2e-8)%dec)] = true.
Proof. vm_compute. reflexivity. Qed.
Example conform_ps2T_reg2 : forallb (fun b => b) [
  ok (ps2T_reg2 (F (0.1)%dec) (F (7.5)%dec)) (F (0.399517097E+03)%dec) (F (2e-8)%dec);
  ok (ps2T_reg2 (F (0.1)%dec) (F (8.0)%dec)) (F (0.514127081E+03)%dec) (F (2e-8)%dec);
  ok (ps2T_reg2 (F (2.5)%dec) (F (8.0)%dec)) (F (0.103984917E+04)%dec) (F (2e-8)%dec);
  ok (ps2T_reg2 (F (8.0)%dec) (F (6.0)%dec)) (F (0.600484040E+03)%dec) (F (2e-8)%dec);
  ok (ps2T_reg2 (F (8.0)%dec) (F (7.5)%dec)) (F (0.106495556E+04)%dec) (F (2e-8)%dec);
  ok (ps2T_reg2 (F (90.0)%dec) (F (6.0)%dec)) (F (0.103801126E+04)%dec) (F (2e-8)%dec);
  ok (ps2T_reg2 (F (20.0)%dec) (F (5.75)%dec)) (F (0.697992849E+03)%dec) (F (2e-8)%dec);
  ok (ps2T_reg2 (F (80.0)%dec) (F (5.25)%dec)) (F (0.854011484E+03)%dec) (F (2e-8)%dec);
  ok (ps2T_reg2 (F (80.0)%dec) (F (5.75)%dec)) (F (0.949017998E+03)%dec) (F (2e-8)%dec)] = true.
Proof. vm_compute. reflexivity. Qed.
Example conform_hs2p_reg2 : forallb (fun b => b) [
  ok (hs2p_reg2 (F (2800.0)%dec) (F (6.5)%dec)) (F (1.371012767)%dec) (F (2e-8)%dec);
  ok (hs2p_reg2 (F (2800.0)%dec) (F (9.5)%dec)) (F (1.879743844e-03)%dec) (F (2e-8)%dec);
  ok (hs2p_reg2 (F (4100.0)%dec) (F (9.5)%dec)) (F (1.024788997e-01)%dec) (F (2e-8)%dec);
  ok (hs2p_reg2 (F (2800.0)%dec) (F (6.0)%dec)) (F (4.793911442)%dec) (F (2e-8)%dec);
  ok (hs2p_reg2 (F (3600.0)%dec) (F (6.0)%dec)) (F (8.395519209e+01)%dec) (F (2e-8)%dec);
  ok (hs2p_reg2 (F (3600.0)%dec) (F (7.0)%dec)) (F (7.527161441)%dec) (F (2e-8)%dec);
  ok (hs2p_reg2 (F (2800.0)%dec) (F (5.1)%dec)) (F (9.439202060E+01)%dec) (F (2e-8)%dec);
  ok (hs2p_reg2 (F (2800.0)%dec) (F (5.8)%dec)) (F (8.414574124)%dec) (F (2e-8)%dec);
  ok (hs2p_reg2 (F (3400.0)%dec) (F (5.8)%dec)) (F (8.376903879e+01)%dec) (F (2e-8)%dec)] = true.
Proof. vm_compute. reflexivity. Qed.
Example conform_Td2p_reg3 : forallb (fun b => b) [
  ok (Td2p_reg3 (F (650.0)%dec) (F (500.0)%dec)) (F (0.255837018E2)%dec) (F (2e-8)%dec);
  ok (Td2p_reg3 (F (650.0)%dec) (F (200.0)%dec)) (F (0.222930643E2)%dec) (F (2e-8)%dec);
  ok (Td2p_reg3 (F (750.0)%dec) (F (500.0)%dec)) (F (0.783095639E2)%dec) (F (2e-8)%dec)] = true.
Proof. vm_compute. reflexivity. Qed.
Example conform_Td2h_reg3 : forallb (fun b => b) [
  ok (Td2h_reg3 (F (650.0)%dec) (F (500.0)%dec)) (F (0.186343019E4)%dec) (F (2e-8)%dec);
  ok (Td2h_reg3 (F (650.0)%dec) (F (200.0)%dec)) (F (0.237512401E4)%dec) (F (2e-8)%dec);
  ok (Td2h_reg3 (F (750.0)%dec) (F (500.0)%dec)) (F (0.225868845E4)%dec) (F (2e-8)%dec)] = true.
Proof. vm_compute. reflexivity. Qed.
Example conform_Td2u_reg3 : forallb (fun b => b) [
  ok (Td2u_reg3 (F (650.0)%dec) (F (500.0)%dec)) (F (0.181226279E4)%dec) (F (2e-8)%dec);
  ok (Td2u_reg3 (F (650.0)%dec) (F (200.0)%dec)) (F (0.226365868E4)%dec) (F (2e-8)%dec);
  ok (Td2u_reg3 (F (750.0)%dec) (F (500.0)%dec)) (F (0.210206932E4)%dec) (F (2e-8)%dec)] = true.
Proof. vm_compute. reflexivity. Qed.
Example conform_Td2s_reg3 : forallb (fun b => b) [
  ok (Td2s_reg3 (F (650.0)%dec) (F (500.0)%dec)) (F (0.405427273E1)%dec) (F (2e-8)%dec);
  ok (Td2s_reg3 (F (650.0)%dec) (F (200.0)%dec)) (F (0.485438792E1)%dec) (F (2e-8)%dec);
  ok (Td2s_reg3 (F (750.0)%dec) (F (500.0)%dec)) (F (0.446971906E1)%dec) (F (2e-8)%dec)] = true.
Proof. vm_compute. reflexivity. Qed.
Example conform_Td2cp_reg3 : forallb (fun b => b) [
  ok (Td2cp_reg3 (F (650.0)%dec) (F (500.0)%dec)) (F (0.138935717E2)%dec) (F (2e-8)%dec);
  ok (Td2cp_reg3 (F (650.0)%dec) (F (200.0)%dec)) (F (0.446579342E2)%dec) (F (2e-8)%dec);
  ok (Td2cp_reg3 (F (750.0)%dec) (F (500.0)%dec)) (F (0.634165359E1)%dec) (F (2e-8)%dec)] = true.
Proof. vm_compute. reflexivity. Qed.
Example conform_Td2w_reg3 : forallb (fun b => b) [
  ok (Td2w_reg3 (F (650.0)%dec) (F (500.0)%dec)) (F (0.502005554E3)%dec) (F (2e-8)%dec);
  ok (Td2w_reg3 (F (650.0)%dec) (F (200.0)%dec)) (F (0.383444594E3)%dec) (F (2e-8)%dec);
  ok (Td2w_reg3 (F (750.0)%dec) (F (500.0)%dec)) (F (0.760696041E3)%dec) (F (2e-8)%dec)] = true.
Proof. vm_compute. reflexivity. Qed.
Example conform_pT2v_reg3 : forallb (fun b => b) [
  ok (pT2v_reg3 (F (50.0)%dec) (F (630.0)%dec)) (F (1.470853100e-3)%dec) (F (2e-8)%dec);
  ok (pT2v_reg3 (F (80.0)%dec) (F (670.0)%dec)) (F (1.503831359e-3)%dec) (F (2e-8)%dec);
  ok (pT2v_reg3 (F (50.0)%dec) (F (710.0)%dec)) (F (2.204728587e-3)%dec) (F (2e-8)%dec);
  ok (pT2v_reg3 (F (80.0)%dec) (F (750.0)%dec)) (F (1.973692940e-3)%dec) (F (2e-8)%dec);
  ok (pT2v_reg3 (F (20.0)%dec) (F (630.0)%dec)) (F (1.761696406e-3)%dec) (F (2e-8)%dec);
  ok (pT2v_reg3 (F (30.0)%dec) (F (650.0)%dec)) (F (1.819560617e-3)%dec) (F (2e-8)%dec);
  ok (pT2v_reg3 (F (26.0)%dec) (F (656.0)%dec)) (F (2.245587720e-3)%dec) (F (2e-8)%dec);
  ok (pT2v_reg3 (F (30.0)%dec) (F (670.0)%dec)) (F (2.506897702e-3)%dec) (F (2e-8)%dec);
  ok (pT2v_reg3 (F (26.0)%dec) (F (661.0)%dec)) (F (2.970225962e-3)%dec) (F (2e-8)%dec);
  ok (pT2v_reg3 (F (30.0)%dec) (F (675.0)%dec)) (F (3.004627086e-3)%dec) (F (2e-8)%dec);
  ok (pT2v_reg3 (F (26.0)%dec) (F (671.0)%dec)) (F (5.019029401e-3)%dec) (F (2e-8)%dec);
  ok (pT2v_reg3 (F (30.0)%dec) (F (690.0)%dec)) (F (4.656470142e-3)%dec) (F (2e-8)%dec);
  ok (pT2v_reg3 (F (23.6)%dec) (F (649.0)%dec)) (F (2.163198378e-3)%dec) (F (2e-8)%dec);
  ok (pT2v_reg3 (F (24.0)%dec) (F (650.0)%dec)) (F (2.166044161e-3)%dec) (F (2e-8)%dec);
  ok (pT2v_reg3 (F (23.6)%dec) (F (652.0)%dec)) (F (2.651081407e-3)%dec) (F (2e-8)%dec);
  ok (pT2v_reg3 (F (24.0)%dec) (F (654.0)%dec)) (F (2.967802335e-3)%dec) (F (2e-8)%dec);
  ok (pT2v_reg3 (F (23.6)%dec) (F (653.0)%dec)) (F (3.273916816e-3)%dec) (F (2e-8)%dec);
  ok (pT2v_reg3 (F (24.0)%dec) (F (655.0)%dec)) (F (3.550329864e-3)%dec) (F (2e-8)%dec);
  ok (pT2v_reg3 (F (23.5)%dec) (F (655.0)%dec)) (F (4.545001142e-3)%dec) (F (2e-8)%dec);
  ok (pT2v_reg3 (F (24.0)%dec) (F (660.0)%dec)) (F (5.100267704e-3)%dec) (F (2e-8)%dec);
  ok (pT2v_reg3 (F (23.0)%dec) (F (660.0)%dec)) (F (6.109525997e-3)%dec) (F (2e-8)%dec);
  ok (pT2v_reg3 (F (24.0)%dec) (F (670.0)%dec)) (F (6.427325645e-3)%dec) (F (2e-8)%dec);
  ok (pT2v_reg3 (F (22.6)%dec) (F (646.0)%dec)) (F (2.117860851e-3)%dec) (F (2e-8)%dec);
  ok (pT2v_reg3 (F (23.0)%dec) (F (646.0)%dec)) (F (2.062374674e-3)%dec) (F (2e-8)%dec);
  ok (pT2v_reg3 (F (22.6)%dec) (F (648.6)%dec)) (F (2.533063780e-3)%dec) (F (2e-8)%dec);
  ok (pT2v_reg3 (F (22.8)%dec) (F (649.3)%dec)) (F (2.572971781e-3)%dec) (F (2e-8)%dec);
  ok (pT2v_reg3 (F (22.6)%dec) (F (649.0)%dec)) (F (2.923432711e-3)%dec) (F (2e-8)%dec);
  ok (pT2v_reg3 (F (22.8)%dec) (F (649.7)%dec)) (F (2.913311494e-3)%dec) (F (2e-8)%dec);
  ok (pT2v_reg3 (F (22.6)%dec) (F (649.1)%dec)) (F (3.131208996e-3)%dec) (F (2e-8)%dec);
  ok (pT2v_reg3 (F (22.8)%dec) (F (649.9)%dec)) (F (3.221160278e-3)%dec) (F (2e-8)%dec);
  ok (pT2v_reg3 (F (22.6)%dec) (F (649.4)%dec)) (F (3.715596186e-3)%dec) (F (2e-8)%dec);
  ok (pT2v_reg3 (F (22.8)%dec) (F (650.2)%dec)) (F (3.664754790e-3)%dec) (F (2e-8)%dec);
  ok (pT2v_reg3 (F (21.1)%dec) (F (640.0)%dec)) (F (1.970999272e-3)%dec) (F (2e-8)%dec);
  ok (pT2v_reg3 (F (21.8)%dec) (F (643.0)%dec)) (F (2.043919161e-3)%dec) (F (2e-8)%dec);
  ok (pT2v_reg3 (F (21.1)%dec) (F (644.0)%dec)) (F (5.251009921e-3)%dec) (F (2e-8)%dec);
  ok (pT2v_reg3 (F (21.8)%dec) (F (648.0)%dec)) (F (5.256844741e-3)%dec) (F (2e-8)%dec);
  ok (pT2v_reg3 (F (19.1)%dec) (F (635.0)%dec)) (F (1.932829079e-3)%dec) (F (2e-8)%dec);
  ok (pT2v_reg3 (F (20.0)%dec) (F (638.0)%dec)) (F (1.985387227e-3)%dec) (F (2e-8)%dec);
  ok (pT2v_reg3 (F (17.0)%dec) (F (626.0)%dec)) (F (8.483262001e-3)%dec) (F (2e-8)%dec);
  ok (pT2v_reg3 (F (20.0)%dec) (F (640.0)%dec)) (F (6.227528101e-3)%dec) (F (2e-8)%dec);
  ok (pT2v_reg3 (F (21.5)%dec) (F (644.6)%dec)) (F (2.268366647e-3)%dec) (F (2e-8)%dec);
  ok (pT2v_reg3 (F (22.0)%dec) (F (646.1)%dec)) (F (2.296350553e-3)%dec) (F (2e-8)%dec);
  ok (pT2v_reg3 (F (22.5)%dec) (F (648.6)%dec)) (F (2.832373260e-3)%dec) (F (2e-8)%dec);
  ok (pT2v_reg3 (F (22.3)%dec) (F (647.9)%dec)) (F (2.811424405e-3)%dec) (F (2e-8)%dec);
  ok (pT2v_reg3 (F (22.15)%dec) (F (647.5)%dec)) (F (3.694032281e-3)%dec) (F (2e-8)%dec);
  ok (pT2v_reg3 (F (22.3)%dec) (F (648.1)%dec)) (F (3.622226305e-3)%dec) (F (2e-8)%dec);
  ok (pT2v_reg3 (F (22.11)%dec) (F (648.0)%dec)) (F (4.528072649e-3)%dec) (F (2e-8)%dec);
  ok (pT2v_reg3 (F (22.3)%dec) (F (649.0)%dec)) (F (4.556905799e-3)%dec) (F (2e-8)%dec);
  ok (pT2v_reg3 (F (22.0)%dec) (F (646.84)%dec)) (F (2.698354719e-3)%dec) (F (2e-8)%dec);
  ok (pT2v_reg3 (F (22.064)%dec) (F (647.05)%dec)) (F (2.717655648e-3)%dec) (F (2e-8)%dec);
  ok (pT2v_reg3 (F (22.0)%dec) (F (646.89)%dec)) (F (3.798732962e-3)%dec) (F (2e-8)%dec);
  ok (pT2v_reg3 (F (22.064)%dec) (F (647.15)%dec)) (F (3.701940010e-3)%dec) (F (2e-8)%dec)] = true.
Proof. vm_compute. reflexivity. Qed.
Example conform_ph2T_reg3 : forallb (fun b => b) [
  ok (ph2T_reg3 (F (20.0)%dec) (F (1700.0)%dec)) (F (6.293083892e2)%dec) (F (2e-8)%dec);
  ok (ph2T_reg3 (F (50.0)%dec) (F (2000.0)%dec)) (F (6.905718338e2)%dec) (F (2e-8)%dec);
  ok (ph2T_reg3 (F (100.0)%dec) (F (2100.0)%dec)) (F (7.336163014e2)%dec) (F (2e-8)%dec);
  ok (ph2T_reg3 (F (20.0)%dec) (F (2500.0)%dec)) (F (6.418418053e2)%dec) (F (2e-8)%dec);
  ok (ph2T_reg3 (F (50.0)%dec) (F (2400.0)%dec)) (F (7.351848618e2)%dec) (F (2e-8)%dec);
  ok (ph2T_reg3 (F (100.0)%dec) (F (2700.0)%dec)) (F (8.420460876e2)%dec) (F (2e-8)%dec)] = true.
Proof. vm_compute. reflexivity. Qed.
Example conform_ph2v_reg3 : forallb (fun b => b) [
  ok (ph2v_reg3 (F (20.0)%dec) (F (1700.0)%dec)) (F (1.749903962e-3)%dec) (F (2e-8)%dec);
  ok (ph2v_reg3 (F (50.0)%dec) (F (2000.0)%dec)) (F (1.908139035e-3)%dec) (F (2e-8)%dec);
  ok (ph2v_reg3 (F (100.0)%dec) (F (2100.0)%dec)) (F (1.676229776e-3)%dec) (F (2e-8)%dec);
  ok (ph2v_reg3 (F (20.0)%dec) (F (2500.0)%dec)) (F (6.670547043e-3)%dec) (F (2e-8)%dec);
  ok (ph2v_reg3 (F (50.0)%dec) (F (2400.0)%dec)) (F (2.801244590e-3)%dec) (F (2e-8)%dec);
  ok (ph2v_reg3 (F (100.0)%dec) (F (2700.0)%dec)) (F (2.404234998e-3)%dec) (F (2e-8)%dec)] = true.
Proof. vm_compute. reflexivity. Qed.
Example conform_ps2T_reg3 : forallb (fun b => b) [
  ok (ps2T_reg3 (F (20.0)%dec) (F (3.8)%dec)) (F (6.282959869e2)%dec) (F (2e-8)%dec);
  ok (ps2T_reg3 (F (50.0)%dec) (F (3.6)%dec)) (F (6.297158726e2)%dec) (F (2e-8)%dec);
  ok (ps2T_reg3 (F (100.0)%dec) (F (4.0)%dec)) (F (7.056880237e2)%dec) (F (2e-8)%dec);
  ok (ps2T_reg3 (F (20.0)%dec) (F (5.0)%dec)) (F (6.401176443e2)%dec) (F (2e-8)%dec);
  ok (ps2T_reg3 (F (50.0)%dec) (F (4.5)%dec)) (F (7.163687517e2)%dec) (F (2e-8)%dec);
  ok (ps2T_reg3 (F (100.0)%dec) (F (5.0)%dec)) (F (8.474332825e2)%dec) (F (2e-8)%dec)] = true.
Proof. vm_compute. reflexivity. Qed.
Example conform_ps2v_reg3 : forallb (fun b => b) [
  ok (ps2v_reg3 (F (20.0)%dec) (F (3.8)%dec)) (F (1.733791463e-3)%dec) (F (2e-8)%dec);
  ok (ps2v_reg3 (F (50.0)%dec) (F (3.6)%dec)) (F (1.469680170e-3)%dec) (F (2e-8)%dec);
  ok (ps2v_reg3 (F (100.0)%dec) (F (4.0)%dec)) (F (1.555893131e-3)%dec) (F (2e-8)%dec);
  ok (ps2v_reg3 (F (20.0)%dec) (F (5.0)%dec)) (F (6.262101987e-3)%dec) (F (2e-8)%dec);
  ok (ps2v_reg3 (F (50.0)%dec) (F (4.5)%dec)) (F (2.332634294e-3)%dec) (F (2e-8)%dec);
  ok (ps2v_reg3 (F (100.0)%dec) (F (5.0)%dec)) (F (2.449610757e-3)%dec) (F (2e-8)%dec)] = true.
Proof. vm_compute. reflexivity. Qed.
Example conform_hs2p_reg3 : forallb (fun b => b) [
  ok (hs2p_reg3 (F (1700.0)%dec) (F (3.8)%dec)) (F (25.5570324620)%dec) (F (2e-8)%dec);
  ok (hs2p_reg3 (F (2000.0)%dec) (F (4.2)%dec)) (F (45.40873468)%dec) (F (2e-8)%dec);
  ok (hs2p_reg3 (F (2100.0)%dec) (F (4.3)%dec)) (F (60.78123340100)%dec) (F (2e-8)%dec);
  ok (hs2p_reg3 (F (2600.0)%dec) (F (5.1)%dec)) (F (34.34999263)%dec) (F (2e-8)%dec);
  ok (hs2p_reg3 (F (2400.0)%dec) (F (4.7)%dec)) (F (63.6392488750)%dec) (F (2e-8)%dec);
  ok (hs2p_reg3 (F (2700.0)%dec) (F (5.0)%dec)) (F (88.3904328)%dec) (F (2e-8)%dec)] = true.
Proof. vm_compute. reflexivity. Qed.
Example conform_p_saturation : forallb (fun b => b) [
  ok (p_saturation (F (300.0)%dec)) (F (0.00353658941)%dec) (F (2e-8)%dec);
  ok (p_saturation (F (500.0)%dec)) (F (2.63889776)%dec) (F (2e-8)%dec);
  ok (p_saturation (F (600.0)%dec)) (F (12.3443146)%dec) (F (2e-8)%dec)] = true.
Proof. vm_compute. reflexivity. Qed.
Example conform_T_saturation : forallb (fun b => b) [
  ok (T_saturation (F (0.1)%dec)) (F (372.755919)%dec) (F (2e-8)%dec);
  ok (T_saturation (F (1.0)%dec)) (F (453.035632)%dec) (F (2e-8)%dec);
  ok (T_saturation (F (10.0)%dec)) (F (584.149488)%dec) (F (2e-8)%dec)] = true.
Proof. vm_compute. reflexivity. Qed.
Example conform_pT2v_reg5 : forallb (fun b => b) [
  ok (pT2v_reg5 (F (0.5)%dec) (F (1500.0)%dec)) (F (1.38455090)%dec) (F (2e-8)%dec);
  ok (pT2v_reg5 (F (30.0)%dec) (F (1500.0)%dec)) (F (0.0230761299)%dec) (F (2e-8)%dec);
  ok (pT2v_reg5 (F (30.0)%dec) (F (2000.0)%dec)) (F (0.0311385219)%dec) (F (2e-8)%dec)] = true.
Proof. vm_compute. reflexivity. Qed.
Example conform_pT2h_reg5 : forallb (fun b => b) [
  ok (pT2h_reg5 (F (0.5)%dec) (F (1500.0)%dec)) (F (0.521976855e+4)%dec) (F (2e-8)%dec);
  ok (pT2h_reg5 (F (30.0)%dec) (F (1500.0)%dec)) (F (5167.23514)%dec) (F (2e-8)%dec);
  ok (pT2h_reg5 (F (30.0)%dec) (F (2000.0)%dec)) (F (6571.22604)%dec) (F (2e-8)%dec)] = true.
Proof. vm_compute. reflexivity. Qed.
Example conform_pT2u_reg5 : forallb (fun b => b) [
  ok (pT2u_reg5 (F (0.5)%dec) (F (1500.0)%dec)) (F (4527.49310)%dec) (F (2e-8)%dec);
  ok (pT2u_reg5 (F (30.0)%dec) (F (1500.0)%dec)) (F (4474.95124)%dec) (F (2e-8)%dec);
  ok (pT2u_reg5 (F (30.0)%dec) (F (2000.0)%dec)) (F (5637.07038)%dec) (F (2e-8)%dec)] = true.
Proof. vm_compute. reflexivity. Qed.
Example conform_pT2s_reg5 : forallb (fun b => b) [
  ok (pT2s_reg5 (F (0.5)%dec) (F (1500.0)%dec)) (F (9.65408875)%dec) (F (2e-8)%dec);
  ok (pT2s_reg5 (F (30.0)%dec) (F (1500.0)%dec)) (F (7.72970133)%dec) (F (2e-8)%dec);
  ok (pT2s_reg5 (F (30.0)%dec) (F (2000.0)%dec)) (F (8.53640523)%dec) (F (2e-8)%dec)] = true.
Proof. vm_compute. reflexivity. Qed.
Example conform_pT2cp_reg5 : forallb (fun b => b) [
  ok (pT2cp_reg5 (F (0.5)%dec) (F (1500.0)%dec)) (F (2.61609445)%dec) (F (2e-8)%dec);
  ok (pT2cp_reg5 (F (30.0)%dec) (F (1500.0)%dec)) (F (2.72724317)%dec) (F (2e-8)%dec);
  ok (pT2cp_reg5 (F (30.0)%dec) (F (2000.0)%dec)) (F (2.88569882)%dec) (F (2e-8)%dec)] = true.
Proof. vm_compute. reflexivity. Qed.
Example conform_pT2w_reg5 : forallb (fun b => b) [
  ok (pT2w_reg5 (F (0.5)%dec) (F (1500.0)%dec)) (F (917.068690)%dec) (F (2e-8)%dec);
  ok (pT2w_reg5 (F (30.0)%dec) (F (1500.0)%dec)) (F (928.548002)%dec) (F (2e-8)%dec);
  ok (pT2w_reg5 (F (30.0)%dec) (F (2000.0)%dec)) (F (1067.36948)%dec) (F (2e-8)%dec)] = true.
Proof. vm_compute. reflexivity. Qed.
Example conform_h2p_sat_reg3 : forallb (fun b => b) [
  ok (h2p_sat_reg3 (F (1700.0)%dec)) (F (1.724175718e1)%dec) (F (2e-8)%dec);
  ok (h2p_sat_reg3 (F (2000.0)%dec)) (F (2.193442957e1)%dec) (F (2e-8)%dec);
  ok (h2p_sat_reg3 (F (2400.0)%dec)) (F (2.018090839e1)%dec) (F (2e-8)%dec)] = true.
Proof. vm_compute. reflexivity. Qed.
Example conform_s2p_sat_reg3 : forallb (fun b => b) [
  ok (s2p_sat_reg3 (F (3.8)%dec)) (F (1.687755057e1)%dec) (F (2e-8)%dec);
  ok (s2p_sat_reg3 (F (4.2)%dec)) (F (2.164451789e1)%dec) (F (2e-8)%dec);
  ok (s2p_sat_reg3 (F (5.2)%dec)) (F (1.668968482e1)%dec) (F (2e-8)%dec)] = true.
Proof. vm_compute. reflexivity. Qed.
Example conform_hs_region_h1_s : forallb (fun b => b) [
  ok (hs_region_h1_s (F (1.0)%dec)) (F (3.085509647e2)%dec) (F (2e-8)%dec);
  ok (hs_region_h1_s (F (2.0)%dec)) (F (7.006304472e2)%dec) (F (2e-8)%dec);
  ok (hs_region_h1_s (F (3.0)%dec)) (F (1.198359754e3)%dec) (F (2e-8)%dec)] = true.
Proof. vm_compute. reflexivity. Qed.
Example conform_hs_region_h3a_s : forallb (fun b => b) [
  ok (hs_region_h3a_s (F (3.8)%dec)) (F (1.685025565e3)%dec) (F (2e-8)%dec);
  ok (hs_region_h3a_s (F (4.0)%dec)) (F (1.816891476e3)%dec) (F (2e-8)%dec);
  ok (hs_region_h3a_s (F (4.2)%dec)) (F (1.949352563e3)%dec) (F (2e-8)%dec)] = true.
Proof. vm_compute. reflexivity. Qed.
Example conform_hs_region_h2ab_s : forallb (fun b => b) [
  ok (hs_region_h2ab_s (F (7.0)%dec)) (F (2.723729985e3)%dec) (F (2e-8)%dec);
  ok (hs_region_h2ab_s (F (8.0)%dec)) (F (2.599047210e3)%dec) (F (2e-8)%dec);
  ok (hs_region_h2ab_s (F (9.0)%dec)) (F (2.511861477e3)%dec) (F (2e-8)%dec)] = true.
Proof. vm_compute. reflexivity. Qed.
Example conform_hs_region_h2c3b_s : forallb (fun b => b) [
  ok (hs_region_h2c3b_s (F (5.5)%dec)) (F (2.687693850e3)%dec) (F (2e-8)%dec);
  ok (hs_region_h2c3b_s (F (5.0)%dec)) (F (2.451623609e3)%dec) (F (2e-8)%dec);
  ok (hs_region_h2c3b_s (F (4.5)%dec)) (F (2.144360448e3)%dec) (F (2e-8)%dec)] = true.
Proof. vm_compute. reflexivity. Qed.
Example conform_hs_region_h13_s : forallb (fun b => b) [
  ok (hs_region_h13_s (F (3.7)%dec)) (F (1.632525047e3)%dec) (F (2e-8)%dec);
  ok (hs_region_h13_s (F (3.6)%dec)) (F (1.593027214e3)%dec) (F (2e-8)%dec);
  ok (hs_region_h13_s (F (3.5)%dec)) (F (1.566104611e3)%dec) (F (2e-8)%dec)] = true.
Proof. vm_compute. reflexivity. Qed.
Example conform_B23_T2p : forallb (fun b => b) [
  ok (B23_T2p (F (623.15)%dec)) (F (16.5291643)%dec) (F (2e-8)%dec)] = true.
Proof. vm_compute. reflexivity. Qed.
Example conform_B23_p2T : forallb (fun b => b) [
  ok (B23_p2T (F (16.5291643)%dec)) (F (623.15)%dec) (F (2e-8)%dec)] = true.
Proof. vm_compute. reflexivity. Qed.
Example conform_p2h_3ab : forallb (fun b => b) [
  ok (p2h_3ab (F (25.0)%dec)) (F (2.095936454e3)%dec) (F (2e-8)%dec)] = true.
Proof. vm_compute. reflexivity. Qed.
Example conform_surface_tension : forallb (fun b => b) [
  ok (surface_tension (F (300.0)%dec)) (F (0.0716859625)%dec) (F (2e-8)%dec);
  ok (surface_tension (F (450.0)%dec)) (F (0.0428914992)%dec) (F (2e-8)%dec)] = true.
Proof. vm_compute. reflexivity. Qed.
Example conform_hs_region_t_hs : forallb (fun b => b) [
  ok (hs_region_t_hs (F (2600.0)%dec) (F (5.1)%dec)) (F (7.135259364e2)%dec) (F (2e-8)%dec);
  ok (hs_region_t_hs (F (2700.0)%dec) (F (5.15)%dec)) (F (7.685345532e2)%dec) (F (2e-8)%dec);
  ok (hs_region_t_hs (F (2800.0)%dec) (F (5.2)%dec)) (F (8.176202120e2)%dec) (F (2e-8)%dec)] = true.
Proof. vm_compute. reflexivity. Qed.
Example conform_hs2T_reg43 : forallb (fun b => b) [
  ok (hs2T_reg43 (F (1800.0)%dec) (F (5.3)%dec)) (F (3.468475498e2)%dec) (F (2e-8)%dec);
  ok (hs2T_reg43 (F (2400.0)%dec) (F (6.0)%dec)) (F (4.251373305e2)%dec) (F (2e-8)%dec);
  ok (hs2T_reg43 (F (2500.0)%dec) (F (5.5)%dec)) (F (5.225579013e2)%dec) (F (2e-8)%dec)] = true.
Proof. vm_compute. reflexivity. Qed.
Example conform_viscosity : forallb (fun b => b) [
  ok (viscosity (F (998.0)%dec) (F (298.15)%dec)) (F (889.735100e-6)%dec) (F (1e-7)%dec);
  ok (viscosity (F (600.0)%dec) (F (873.15)%dec)) (F (77.430195e-6)%dec) (F (1e-7)%dec)] = true.
Proof. vm_compute. reflexivity. Qed.
Example conform_static_dielectric : forallb (fun b => b) [
  ok (static_dielectric (F (999.242866)%dec) (F (298.15)%dec)) (F (78.5907250)%dec) (F (2e-8)%dec);
  ok (static_dielectric (F (26.0569558)%dec) (F (873.15)%dec)) (F (1.12620970)%dec) (F (2e-8)%dec)] = true.
Proof. vm_compute. reflexivity. Qed.
