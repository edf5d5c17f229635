"""Check the binary64 model against the verification tables of the repository's own
tests (tests/common/mod.rs, IF97 verification values).  Writes rocq/theories/Conform.v,
whose examples fail unless every row agrees to a relative 2e-8 (or as stated)."""
import re
t = open('/repo/tests/common/mod.rs').read()
tabs = {}
for m in re.finditer(r'pub const (\w+): \[\[f64; (\d+)\]; (\d+)\] =\s*\[(.*?)\];', t, flags=re.S):
    body = re.sub(r'//.*', '', m.group(4))
    rows = [[x.strip() for x in r.split(',') if x.strip()] for r in re.findall(r'\[([^\[\]]*)\]', body)]
    assert len(rows) == int(m.group(3)) and all(len(r) == int(m.group(2)) for r in rows), m.group(1)
    tabs[m.group(1)] = rows
for m in re.finditer(r'pub const (\w+): \[propD; 3\] = \[(.*?)\n\];', t, flags=re.S):
    tabs[m.group(1)] = [dict((k, v) for k, v in re.findall(r'(\w+): ([\d.eE+-]+)', r)) for r in re.findall(r'propD \{(.*?)\}', m.group(2), flags=re.S)]
checks = []
def F(x): return '(F (%s)%%dec)' % re.sub(r'\.(?=[eE]|$)', '.0', x)
def add(e, v, tol='2e-8'): checks.append((e, v, tol))
for r, f in (('r1_pT_data', '1'), ('r2_pT_data', '2')):
    for d in tabs[r]:
        for k in 'vhsu': add('pT2%s_reg%s %s %s' % (k, f, F(d['p']), F(d['T'])), d[k])
        add('pT2cp_reg%s %s %s' % (f, F(d['p']), F(d['T'])), d['cp']); add('pT2w_reg%s %s %s' % (f, F(d['p']), F(d['T'])), d['w'])
for d in tabs['r1_phT']: add('ph2T_reg1 %s %s' % (F(d[0]), F(d[1])), d[2], '1e-4')
for d in tabs['r1_psT']: add('ps2T_reg1 %s %s' % (F(d[0]), F(d[1])), d[2], '1e-4')
for d in tabs['r1_hspT']: add('hs2p_reg1 %s %s' % (F(d[0]), F(d[1])), d[2], '4e-3')
for s in 'abc':
    for d in tabs['r2_ph_2' + s]: add('ph2T_reg2 %s %s' % (F(d[0]), F(d[1])), d[2])
    for d in tabs['r2_ps_2' + s]: add('ps2T_reg2 %s %s' % (F(d[0]), F(d[1])), d[2])
    for d in tabs['r2_hs_reg2' + s]: add('hs2p_reg2 %s %s' % (F(d[0]), F(d[1])), d[2])
for d in tabs['r3_Td']:
    for i, k in enumerate(('p', 'h', 'u', 's', 'cp', 'w')): add('Td2%s_reg3 %s %s' % (k, F(d[0]), F(d[1])), d[2+i])
for d in tabs['r3_v_pT']: add('pT2v_reg3 %s %s' % (F(d[1]), F(d[2])), d[0])
for s in 'ab':
    for d in tabs['r3_phTv_3' + s]: add('ph2T_reg3 %s %s' % (F(d[0]), F(d[1])), d[2]); add('ph2v_reg3 %s %s' % (F(d[0]), F(d[1])), d[3])
    for d in tabs['r3_psTv_3' + s]: add('ps2T_reg3 %s %s' % (F(d[0]), F(d[1])), d[2]); add('ps2v_reg3 %s %s' % (F(d[0]), F(d[1])), d[3])
    for d in tabs['r3_hsp_3' + s]: add('hs2p_reg3 %s %s' % (F(d[0]), F(d[1])), d[2])
for d in tabs['r4_sat_Tp']: add('p_saturation %s' % F(d[0]), d[1])
for d in tabs['r4_sat_pT']: add('T_saturation %s' % F(d[0]), d[1])
for d in tabs['r5_pT_data']:
    for i, k in enumerate(('v', 'h', 'u', 's', 'cp', 'w')): add('pT2%s_reg5 %s %s' % (k, F(d[1]), F(d[0])), d[2+i])
# published verification values the repository does not test: SR2-01(2014), SR4-04(2014)
# (backward equations for p(h,s)), SR5-05, SR3-03, IF97 Eqs 5 and 6, R12-08, R1-76, R8-97
for f, rows in (('h2p_sat_reg3', (('1700.0', '1.724175718e1'), ('2000.0', '2.193442957e1'), ('2400.0', '2.018090839e1'))),
                ('s2p_sat_reg3', (('3.8', '1.687755057e1'), ('4.2', '2.164451789e1'), ('5.2', '1.668968482e1'))),
                ('hs_region_h1_s', (('1.0', '3.085509647e2'), ('2.0', '7.006304472e2'), ('3.0', '1.198359754e3'))),
                ('hs_region_h3a_s', (('3.8', '1.685025565e3'), ('4.0', '1.816891476e3'), ('4.2', '1.949352563e3'))),
                ('hs_region_h2ab_s', (('7.0', '2.723729985e3'), ('8.0', '2.599047210e3'), ('9.0', '2.511861477e3'))),
                ('hs_region_h2c3b_s', (('5.5', '2.687693850e3'), ('5.0', '2.451623609e3'), ('4.5', '2.144360448e3'))),
                ('hs_region_h13_s', (('3.7', '1.632525047e3'), ('3.6', '1.593027214e3'), ('3.5', '1.566104611e3'))),
                ('B23_T2p', (('623.15', '16.5291643'),)), ('B23_p2T', (('16.5291643', '623.15'),)), ('p2h_3ab', (('25.0', '2.095936454e3'),)),
                ('surface_tension', (('300.0', '0.0716859625'), ('450.0', '0.0428914992')))):
    for a, v in rows: add('%s %s' % (f, F(a)), v)
for h, s, v in (('2600.0', '5.1', '7.135259364e2'), ('2700.0', '5.15', '7.685345532e2'), ('2800.0', '5.2', '8.176202120e2')): add('hs_region_t_hs %s %s' % (F(h), F(s)), v)
for h, s, v in (('1800.0', '5.3', '3.468475498e2'), ('2400.0', '6.0', '4.251373305e2'), ('2500.0', '5.5', '5.225579013e2')): add('hs2T_reg43 %s %s' % (F(h), F(s)), v)
for d, T, v in (('998.0', '298.15', '889.735100e-6'), ('600.0', '873.15', '77.430195e-6')): add('viscosity %s %s' % (F(d), F(T)), v, '1e-7')
for d, T, v in (('999.242866', '298.15', '78.5907250'), ('26.0569558', '873.15', '1.12620970')): add('static_dielectric %s %s' % (F(d), F(T)), v)
groups = {}
for e, v, tol in checks: groups.setdefault(e.split()[0], []).append('ok (%s) %s %s' % (e, F(v), F(tol)))
out = """(* Generated by tools/validate.py.  Tests of the translation, not proofs: the model in binary64,
   with the reference libm of FloatInst, reproduces the verification values of the IAPWS releases
   (the tables of /repo/tests/common/mod.rs and some the repository does not test). *)
From Coq Require Import ZArith List Bool Floats. Import ListNotations.
From Verif Require Import Num FloatInst Constant R4Sat Transport Reg1 Reg2 Reg3Td Reg5 Boundaries Reg1Back Reg2Back Reg3Sub Reg3V Reg3 Reg4 Reg5Back Region Api.
Local Instance A : Arith := FArith RefLibm.
Definition F x : float := float_of_dec x.
Definition ok (x y tol : float) : bool := PrimFloat.leb (PrimFloat.abs (x - y)) (tol * PrimFloat.abs y).

""" + '\n'.join('Example conform_%s : forallb (fun b => b) [\n  %s] = true.\nProof. vm_compute. reflexivity. Qed.' % (g, ';\n  '.join(l)) for g, l in groups.items()) + '\n'
open('/verif/rocq/theories/Conform.v', 'w').write(out)
print(len(checks), 'checks,', len(groups), 'functions')
