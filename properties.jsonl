{"id": "C01", "title": "Input echo for two-property calls", "statement": "pt, ph, ps, hs, pv, tv, th and ts return the caller's own input bit for bit when the requested property id is one of the two inputs (e.g. pt(p,t,OT)=t), whatever the values are and whatever region argument is passed; no range check, NaN test or region search interferes.", "quantifier": "all pairs of binary64 inputs including NaN, infinities and signed zeros; every region argument", "why_tests_cant": "2^128 input pairs; a single early range check or unit conversion applied before the echo would only show on out-of-range inputs", "anchors": ["src/rust_if97.rs: pt, ph, ps, hs, pv, tv, th, ts"]}
{"id": "C02", "title": "Input echo and range rejection for quality calls", "statement": "px, hx and sx return -9999 for every property id as soon as one input is strictly outside its documented range ([P_MIN4,P_MAX4], [H_MIN4,H_MAX4], [S_MIN4,S_MAX4], x in [0,1]) and otherwise echo their two inputs bit for bit; tx echoes t and x for every value, and returns -9999 for every other id when T=t+273.15 is outside [273.15,647.096] or x outside [0,1].", "quantifier": "all binary64 inputs and all property ids", "why_tests_cant": "boundary and beyond-boundary behaviour has to hold for every value next to and outside the limits, not for the sampled ones", "anchors": ["src/rust_if97.rs: px, tx, hx, sx", "src/common/constant.rs: P_MAX4, P_MIN4, T_MAX4, T_MIN4, H_MAX4, H_MIN4, S_MAX4, S_MIN4"]}
{"id": "C03", "title": "Region query has a closed set of answers", "statement": "Asking any of pt/ph/ps/hs/pv/tv/th/ts for OR (region) without a region argument yields exactly one of 1,2,3,4,5 or a documented negative error code: for pt one of -2100,-2101,-9999; for ts one of -2101,-2102,-9999; for the others only -9999.", "quantifier": "all pairs of binary64 inputs, any libm", "why_tests_cant": "the region search is a cascade of float comparisons over the plane; tests visit a few points of each region", "anchors": ["src/rust_if97.rs", "src/common/region.rs: pT_sub_region, ph_sub_region, ps_sub_region, hs_sub_region, pv_sub_region, tv_sub_region, th_sub_region, ts_sub_region"]}
{"id": "C04", "title": "Automatic region equals explicit region", "statement": "For every property id, calling X(a,b,o) without region gives the same value as X(a,b,(o,r)) where r is what X(a,b,OR) reports, for all eight two-property functions.", "quantifier": "all inputs, all property ids (known or not)", "why_tests_cant": "the equality has to hold on both sides of every region boundary for every id", "anchors": ["src/rust_if97.rs", "src/common/propertry_pairs.rs: pair_properties"]}
{"id": "C05", "title": "Error codes propagate unchanged", "statement": "If X(a,b,OR) reports a negative error code c, then every non-echo property except OX returns exactly c and OX returns -9999; the caller can therefore detect an invalid state from any property.", "quantifier": "all inputs, all property ids, all eight two-property functions", "why_tests_cant": "needs the whole complement of the validity domain", "anchors": ["src/common/propertry_pairs.rs: pair_properties"]}
{"id": "C06", "title": "NaN never selects a region", "statement": "If an input of pt, ph, ps, hs, pv, tv, th or ts is NaN, the region query returns an error code (never 1..5) and hence no property of an unrelated state is returned.", "quantifier": "every call with at least one NaN input, any libm whose pow/exp/ln/powi propagate NaN", "why_tests_cant": "NaN makes every comparison false, so each path through the comparison cascade has to be considered", "anchors": ["src/common/region.rs"]}
{"id": "C07", "title": "Quality calls do not reject NaN", "statement": "Full statement: px/tx/hx/sx return -9999 if an input is NaN. The range tests are written as 'outside' tests, so NaN passes them: px(NaN,x,OP) returns NaN and px(NaN, x, OX) returns x.", "quantifier": "every NaN input", "why_tests_cant": "tests never pass NaN", "anchors": ["src/rust_if97.rs: px, tx, hx, sx"]}
{"id": "C08", "title": "Documented validity range of pt", "statement": "pt(p,t,OR) is -2100 for p<P_MIN or p>100 MPa, -2101 for T=t+273.15 outside [273.15,2273.15] (when p is in range), -2100 for T>1073.15 and p>50; conversely for any other non-NaN state with P_MIN<p the region query never reports an error.", "quantifier": "all non-NaN (p,t)", "why_tests_cant": "completeness of the region cover (no holes) is a statement about all points of the plane", "anchors": ["src/common/region.rs: pT_sub_region"]}
{"id": "C09", "title": "pt region map equals the IF97 region definition", "statement": "Away from the 1e-6 relative band around the saturation line, pt(p,t,OR) is the region given by the IAPWS-IF97 definition (1: T<=623.15 and p>=psat(T); 2: below psat / below B23 / T in (863.15,1073.15]; 3: T in (623.15,863.15] above B23; 5: T in (1073.15,2273.15], p<=50).", "quantifier": "all non-NaN (p,t) with P_MIN<p", "why_tests_cant": "boundary lines are curves; an off-by-one comparison only shows on them", "anchors": ["src/common/region.rs: pT_sub_region", "src/common/boundaries.rs: B23_T2p", "src/r4/region4_sat_pT.rs: p_saturation"]}
{"id": "C10", "title": "No hole at the lowest pressure", "statement": "Full statement: every state with p=P_MIN and T in [273.15,1073.15] has a region. False: at p exactly P_MIN with 273.15<T<=623.15 (superheated vapour) pt reports -9999 because region 2 is tested with p>P_MIN.", "quantifier": "all T at p=P_MIN", "why_tests_cant": "measure-zero line in the plane", "anchors": ["src/common/region.rs:63"]}
{"id": "C11", "title": "pt inside the saturation band returns the region number, not a property", "statement": "For 273.15<=T<647.096 and |p-psat|/psat<1e-6, pt(p,t,o) returns 4.0 for every non-echo id (enthalpy, entropy, quality, ...): a caller on the saturation line receives 4.0 as if it were the property.", "quantifier": "all (p,t) in the band, all ids", "why_tests_cant": "the band is too thin to be hit by sampling", "anchors": ["src/r4/region4.rs: pT_reg4", "src/common/region.rs:47-53"]}
{"id": "C12", "title": "Quality of single-phase states", "statement": "OX is 0 in region 1, 1 in regions 2, 3 and 5, -9999 when no region applies, for all two-property functions.", "quantifier": "all inputs", "why_tests_cant": "must hold for every state of the region", "anchors": ["src/common/propertry_pairs.rs: pair_properties"]}
{"id": "C13", "title": "Unknown property ids are rejected", "statement": "Every property id outside 0..35 yields -1000 in a valid single-phase state for pt, ph, ps, hs, pv, tv, th, ts, and in every in-range px/tx/hx/sx call; no unknown id is answered with a property.", "quantifier": "all i32 ids outside 0..35, all states", "why_tests_cant": "2^32 ids times all states", "anchors": ["src/r1/region1_pT_ext.rs", "src/r2/region2_pT_ext.rs", "src/r3/region3_Td_ext.rs", "src/r5/region5_pT_ext.rs", "src/r4/region4_pTx.rs"]}
{"id": "C14", "title": "Bindings agree with the Rust API", "statement": "Each exported C function (cdecl and stdcall builds) and each Python function returns, for every input and id, the value the Rust function of the same name returns without region argument.", "quantifier": "all inputs and ids, 12 functions x 3 bindings", "why_tests_cant": "swapped arguments or wrong callee in one of 36 wrappers escapes point tests of other wrappers", "anchors": ["src/cdecl_c_if97.rs", "src/stdcall_c_if97.rs", "src/python_if97.rs"]}
{"id": "C15", "title": "Python xx2y helpers return the property in their name", "statement": "Every helper seuif97.xx2y(a,b) of the Python package returns the property named y of the call xx(a,b,id), with id the Rust constant of y, and the Python constants equal the Rust ones.", "quantifier": "all inputs, all helpers", "why_tests_cant": "one wrong constant among dozens of helpers", "anchors": ["python/seuif97/__init__.py", "src/common/propertry_id.rs"]}
{"id": "C16", "title": "Property ids are unambiguous", "statement": "The 36 public property-id constants are pairwise different and are exactly 0..35.", "quantifier": "all pairs of constants", "why_tests_cant": "a duplicate id silently aliases two properties", "anchors": ["src/common/propertry_id.rs"]}
{"id": "C17", "title": "Density is the reciprocal of specific volume (single phase)", "statement": "In regions 1, 2, 5 (pt, explicit or automatic region) OD is bit for bit 1.0/OV; in region 3 (tv) OV is the input and OD its reciprocal.", "quantifier": "all inputs of the region", "why_tests_cant": "must hold at every state", "anchors": ["src/r1/region1.rs", "src/r2/region2.rs", "src/r5/region5.rs", "src/r3/region3.rs"]}
{"id": "C18", "title": "Density is the reciprocal of specific volume (wet steam)", "statement": "Full statement: px/tx/ph/... in the two-phase region satisfy OD*OV=1. False: OD is interpolated linearly between liquid and vapour densities, so OD*OV=1 holds only for x in {0,1} or equal densities.", "quantifier": "all (p,x) with 0<x<1", "why_tests_cant": "tests do not compare the two ids with each other", "anchors": ["src/r4/region4_pTx.rs: px_reg4, Tx_reg4"]}
{"id": "C19", "title": "Summation in steps equals the plain sum", "statement": "The piecewise (multi-step) polynomial summation used for speed runs through the coefficient table in the same order as the plain loop, so for contiguous step ranges it returns the plain sum up to the order of additions: equal in exact arithmetic for every table and every split; every step list used in the library covers its table completely.", "quantifier": "all tables, all step splits, all arguments", "why_tests_cant": "dropping or duplicating a table row changes results by small amounts", "anchors": ["src/algo/polynomial_steps.rs", "src/algo/polynomial.rs"]}
{"id": "C20", "title": "Subregion 3l uses its whole coefficient table", "statement": "Full statement: the volume equation of subregion 3l sums all 43 terms of its table. False: the step list ends at index 42 so the last term is dropped, and the result changes whenever that term is non-zero.", "quantifier": "all (p,T) of subregion 3l", "why_tests_cant": "the dropped term is tiny at the verification points", "anchors": ["src/r3/region3_v_subregion_pT.rs: pT2v_3l"]}
{"id": "C21", "title": "Volume and entropy are the derivatives of the Gibbs energy", "statement": "In exact arithmetic, for regions 1, 2, 5: d(OG)/dp at constant t is 1000*OV and d(OG)/dt at constant p is -OS.", "quantifier": "all p>0, T>0 (region 1: T<1134)", "why_tests_cant": "derivative identities over a continuum; finite differences cannot separate coefficient slips from truncation error", "anchors": ["src/r1/region1_gfe.rs", "src/r2/region2_gfe.rs", "src/r5/region5_gfe.rs", "src/r1/region1_pT.rs"]}
{"id": "C22", "title": "cp is the temperature derivative of enthalpy", "statement": "In exact arithmetic, for regions 1, 2, 5: OCP = d(OH)/dt = T d(OS)/dt at constant p.", "quantifier": "all p>0, T>0 of the region's formula domain", "why_tests_cant": "as above", "anchors": ["src/r1/region1_pT.rs", "src/r2/region2_pT.rs", "src/r5/region5_pT.rs"]}
{"id": "C23", "title": "Volume derivatives", "statement": "In exact arithmetic, for regions 1, 2, 5: ODVDT and ODVDP returned by pt are d(OV)/dt at constant p and d(OV)/dp at constant t.", "quantifier": "all p>0,T>0 of the formula domain", "why_tests_cant": "as above", "anchors": ["src/r1/region1_pT_ext.rs", "src/r2/region2_pT_ext.rs", "src/r5/region5_pT_ext.rs"]}
{"id": "C24", "title": "Energy identities", "statement": "In exact arithmetic, for regions 1, 2, 5 (pt) and 3 (tv): OH = OU + 1000 p v, OG = OH - T OS, OF = OU - T OS, OZ = 1000 p v /(R T).", "quantifier": "all states", "why_tests_cant": "linear identities between independently coded formulas at every state", "anchors": ["src/r1", "src/r2", "src/r3", "src/r5"]}
{"id": "C25", "title": "Expansion, compressibility and pressure coefficients are mutually consistent", "statement": "In exact arithmetic OEC = ODVDT/OV, OKT = -ODVDP/OV, ODPDT = OEC/OKT = -ODVDT/ODVDP, OPC = OALFAP = ODPDT/p, OBETAP = 1/(p v OKT) in regions 1, 2, 3, 5.", "quantifier": "all states with non-zero volume and compressibility", "why_tests_cant": "relations between independently coded formulas", "anchors": ["src/r1/region1_pT_ext.rs", "src/r3/region3_Td_ext.rs"]}
{"id": "C26", "title": "Mayer relation for the heat capacities", "statement": "In exact arithmetic OCP - OCV = 1000 T v OEC^2/OKT in regions 1, 2 and 3. In region 5 it is false: the quotient is applied to the whole bracket in the cv formula.", "quantifier": "all states with non-zero denominators", "why_tests_cant": "the region 5 error is below the tolerance of a low-pressure test point", "anchors": ["src/r5/region5_pT.rs: pT2cv_reg5", "src/r1/region1_pT.rs: pT2cv_reg1"]}
{"id": "C27", "title": "Speed of sound is consistent with cp, cv and compressibility", "statement": "In exact arithmetic OW^2 = 1e6 * v * (cp/cv) / OKT in regions 1 and 2 (and 3), and OKS = OW^2/(1e6 p v).", "quantifier": "all states where the radicand is positive", "why_tests_cant": "relation between independently coded formulas", "anchors": ["src/r1/region1_pT.rs: pT2w_reg1", "src/r1/region1_pT_ext.rs: ks"]}
{"id": "C28", "title": "Joule-Thomson coefficients", "statement": "In exact arithmetic OJTC*OCP = -(dh/dp)_T in K/MPa units for regions 1, 2, 5; the isothermal coefficient OIJTC is documented as (dh/dp)_T in kJ/(kg MPa) but is returned 1000 times too small.", "quantifier": "all states", "why_tests_cant": "unit slips are invisible to self-consistent tests", "anchors": ["src/r1/region1_pT_ext.rs", "src/common/propertry_id.rs: OIJTC"]}
{"id": "C29", "title": "Exergy", "statement": "In exact arithmetic OE = OH - 273.16*OS in regions 1, 2, 5. In region 3 this is false because of a misplaced parenthesis in the formula.", "quantifier": "all states", "why_tests_cant": "a parenthesis slip changes the value smoothly", "anchors": ["src/r3/region3_Td_ext.rs: Td2e_reg3"]}
{"id": "C30", "title": "Region 3 pressure, entropy and heat capacity derive from the Helmholtz energy", "statement": "In exact arithmetic, for tv in region 3: OP = -(dF/dv)_T/1000, OS = -(dF/dT)_v, OCV = (dU/dT)_v.", "quantifier": "all T>0, v>0", "why_tests_cant": "derivative identities over a continuum", "anchors": ["src/r3/region3_hfe.rs", "src/r3/region3_Td.rs"]}
{"id": "C31", "title": "Fugacity is pressure times fugacity coefficient", "statement": "In exact arithmetic OFU = p*OFI and OFI>0 in regions 1, 2, 3, 5.", "quantifier": "all states", "why_tests_cant": "for all states", "anchors": ["src/r1/region1_pT_ext.rs"]}
{"id": "C32", "title": "Saturation pressure and temperature are inverse", "statement": "In exact arithmetic, on the whole saturation line tx(px(p,x,OT),x,OP)=p and px(tx(t,x,OP),x,OT)=t.", "quantifier": "all p in [P_MIN,PC], all T in [273.15,TC]", "why_tests_cant": "a round trip over an interval", "anchors": ["src/r4/region4_sat_pT.rs: p_saturation, T_saturation"]}
{"id": "C33", "title": "Saturation pressure is strictly increasing", "statement": "In exact arithmetic t1<t2 implies tx(t1,x,OP)<tx(t2,x,OP) on [273.15,647.096] K.", "quantifier": "all pairs of temperatures", "why_tests_cant": "monotonicity over an interval", "anchors": ["src/r4/region4_sat_pT.rs: p_saturation"]}
{"id": "C34", "title": "B23 boundary functions are inverse", "statement": "In exact arithmetic the two B23 boundary equations are inverse to each other up to the rounding of their published coefficients (a stated tolerance) for 16.5<=p<=100.", "quantifier": "all p in the range", "why_tests_cant": "round trip over an interval", "anchors": ["src/common/boundaries.rs: B23_T2p, B23_p2T"]}
{"id": "C35", "title": "Lever rule", "statement": "For 0<x<1 every mixed property of px (v, h, s, u, ...) is y(0)+x*(y(1)-y(0)) with y(0)=px(p,0,o), y(1)=px(p,1,o) computed by the same library; hence it lies between the saturated values in exact arithmetic; same for tx.", "quantifier": "all (p,x), (t,x), all mixed ids", "why_tests_cant": "a property over a continuum", "anchors": ["src/r4/region4_pTx.rs"]}
{"id": "C36", "title": "Quality round trip", "statement": "In exact arithmetic ph(p,px(p,x,OH),(OX,4))=x, ps(p,px(p,x,OS),(OX,4))=x for every p and 0<=x<=1 with distinct saturated values.", "quantifier": "all (p,x)", "why_tests_cant": "round trip over a continuum", "anchors": ["src/r4/region4.rs: ph_reg4, ps_reg4", "src/r4/region4_pTx.rs"]}
{"id": "C37", "title": "Iteration counts are bounded; calls return", "statement": "pt, ph, ps, pv, ts, px, tx, hx, sx return after a bounded number of steps for every input. tv and th return for every input too (their loops are unbounded in the source).", "quantifier": "all binary64 inputs including NaN and infinities", "why_tests_cant": "termination for all inputs", "anchors": ["src/algo/root.rs", "src/r1/region1_pair_ext.rs", "src/r2/region2_pair_ext.rs", "src/r5/region5_pair_ext.rs", "src/common/region.rs:615"]}
{"id": "C38", "title": "hs in the two-phase region returns", "statement": "Full statement: hs(h,s,o) returns for every input. The temperature search of the two-phase branch loops until |s-s'|<=1e-6 without an iteration limit.", "quantifier": "all (h,s)", "why_tests_cant": "non-termination is not observable by tests", "anchors": ["src/r4/region4_T_hs.rs: hs2T_reg4"]}
{"id": "C39", "title": "Inverse calls return temperatures and pressures inside the region", "statement": "Where the code clamps the solver's answer, the answer is inside the region's limits or NaN for every input: region 5 temperatures from ph/ps/pv/hs in [800,2000] C, region 5 pressures from tv/th/ts/hs in [P_MIN5,50], region 2 and 1 pressures from tv/th/ts within their limits.", "quantifier": "all inputs, any libm", "why_tests_cant": "diverging iterations produce arbitrary numbers on rare inputs", "anchors": ["src/r5/region5_ph_ps_hs.rs", "src/r5/region5_pair_ext.rs", "src/r2/region2_pair_ext.rs", "src/r1/region1_pair_ext.rs"]}
{"id": "C40", "title": "Secant solver exit", "statement": "The secant solver evaluates the target function at most i_max+2 times and returns a point for which one of these holds: residual zero, last step <= accuracy, iteration budget exhausted, or two equal consecutive residuals.", "quantifier": "all target functions, all starting points", "why_tests_cant": "all functions", "anchors": ["src/algo/root.rs"]}
{"id": "C41", "title": "Bisection on the saturation line stays inside its bracket", "statement": "hx and sx return a temperature inside [0, 373.946] C and a bracket that keeps the sign change if there was one.", "quantifier": "all inputs in range", "why_tests_cant": "all inputs", "anchors": ["src/r4/region4.rs: bisection_reg4 callers"]}
{"id": "C42", "title": "Kinematic viscosity, diffusivity, Prandtl", "statement": "OKV = ODV/OD, OTD = OTC/(1000 OCP OD), OPR = 1000*ODV*OCP/OTC. OKV fails in region 3 (multiplies by density) and OPR fails in regions 1, 2, 5 (density replaced by 1/T); the others hold for all states.", "quantifier": "all states in regions 1,2,3,5", "why_tests_cant": "relations between ids are not tested", "anchors": ["src/common/propertry_pairs.rs: pair_transport_reg"]}
{"id": "C43", "title": "Surface tension domain", "statement": "OST is -9999 outside [248.15,647.096] K, and in exact arithmetic is zero at the critical temperature and positive and decreasing below it.", "quantifier": "all temperatures", "why_tests_cant": "statement over an interval", "anchors": ["src/common/transport_further.rs: surface_tension"]}
{"id": "C44", "title": "Hot vapour states of tv, th, ts", "statement": "Full statement: tv/th/ts accept every region-2 state pt accepts. False: for 863.15<T<=1073.15 K tv, th and ts never report region 2 and answer -9999.", "quantifier": "all states with T in (863.15,1073.15]", "why_tests_cant": "must hold for all such states", "anchors": ["src/common/region.rs: tv_sub_region, th_sub_region, ts_sub_region"]}
{"id": "C45", "title": "Region-3 volume uses the right subregion", "statement": "Full statement: the region-3 p-T volume search selects the subregion of the IAPWS SR5 map. False near the critical pressure: for psat(643.15)<p<=22.5 subregions 3c and 3k are never selected because their assignment is overwritten.", "quantifier": "all (p,T) in region 3", "why_tests_cant": "needs the whole plane", "anchors": ["src/r3/region3_v_pT.rs"]}
{"id": "C46", "title": "Calling convention of the C exports", "statement": "Full statement: all functions of the cdecl build use the C calling convention. False: pt is exported with the stdcall convention there.", "quantifier": "all 12 exports", "why_tests_cant": "only visible on 32-bit x86", "anchors": ["src/cdecl_c_if97.rs"]}
{"id": "C47", "title": "Explicit region argument outside 1..5", "statement": "An explicit region argument r that is neither 1..5 nor 10 yields r itself as the value of every non-echo property except OX (-9999); 10 means automatic.", "quantifier": "all i32 region arguments and all inputs", "why_tests_cant": "2^32 arguments", "anchors": ["src/common/propertry_pairs.rs"]}
{"id": "C48", "title": "All properties of one call belong to one state", "statement": "Inverse calls answer every property from a single state: th/ts (and tv) in regions 1, 2, 5 return for every id what pt returns at the pressure they report and the given t, bit for bit; wet-steam calls return what px/tx return at the quality they report, bit for bit; pt in region 3 returns what tv returns at the volume it reports, bit for bit; ph/ps/pv/hs return what pt (regions 1, 2, 5) or tv (region 3) returns at the state they report, in exact arithmetic (the temperature passes through Celsius and back).", "quantifier": "all inputs, all property ids, all eight two-property functions and regions", "why_tests_cant": "a per-property bug (an id answered from another state or region formula) only shows for the combinations of id, function and region a test happens to pick", "anchors": ["src/r1/region1.rs", "src/r2/region2.rs", "src/r3/region3.rs", "src/r4/region4.rs", "src/r5/region5.rs", "src/common/propertry_pairs.rs"]}
{"id": "C49", "title": "Thermodynamic stability", "statement": "In every stable liquid state (region 1) the volume, the compressibility, both heat capacities and the speed of sound are positive, the volume falls with pressure, cv does not exceed cp, and the speed of sound is the one of the equation of state.", "quantifier": "all states with 0 <= t <= 350 C and psat(t) <= p <= 100 MPa", "why_tests_cant": "a sign change in a corner of the domain is invisible to pointwise checks", "anchors": ["src/r1/region1_gfe.rs", "src/r1/region1_pT.rs"]}
{"id": "C50", "title": "Monotonicity of h, s and v", "statement": "In region 1 enthalpy and entropy increase strictly with temperature on every isobar and the volume decreases strictly with pressure on every isotherm, so (p,h) and (p,s) determine the state.", "quantifier": "all pairs of states of an isobar or isotherm", "why_tests_cant": "monotonicity relates pairs of states", "anchors": ["src/r1/region1_pT.rs"]}
{"id": "C51", "title": "Round trip pt - ph", "statement": "For every state of region 1, ph applied to p and the enthalpy from pt finds region 1 and returns the temperature within 0.025 K (the accuracy required of T(p,h) by IF97).", "quantifier": "all states of region 1, including the saturation line and the 350 C line", "why_tests_cant": "the backward equation is an independent fit; its error peaks between test points", "anchors": ["src/r1/region1_T_phps.rs", "src/common/region.rs"]}
{"id": "C52", "title": "Round trip pt - ps", "statement": "For every state of region 1, ps applied to p and the entropy from pt finds region 1 and returns the temperature within 0.025 K (the accuracy required of T(p,s) by IF97).", "quantifier": "all states of region 1, including the saturation line and the 350 C line", "why_tests_cant": "the backward equation is an independent fit; its error peaks between test points", "anchors": ["src/r1/region1_T_phps.rs", "src/common/region.rs"]}
{"id": "C53", "title": "Round trip pt - hs", "statement": "For every state of region 1, hs with region 1 applied to the enthalpy and entropy from pt returns the pressure within 0.015 MPa (the accuracy stated for p(h,s) in region 1).", "quantifier": "all states of region 1", "why_tests_cant": "the backward equation is an independent fit; its error peaks between test points", "anchors": ["src/r1/region1_p_hs.rs"]}
{"id": "C54", "title": "Stability of the vapour", "statement": "For every state of region 2, v, kt, cv, cp and w from pt are positive, cv <= cp, (dv/dp)_T is negative and w^2 = v (cp/cv) / kt.", "quantifier": "all states of region 2 (0 to 800 C, 0 to 100 MPa, up to the saturation line and the boundary with region 3)", "why_tests_cant": "signs over a two-dimensional continuum; the region extends to p -> 0", "anchors": ["src/r2/region2_pT.rs", "src/r2/region2_gfe.rs"]}
{"id": "C55", "title": "Monotonicity of h, s and v in the vapour", "statement": "In region 2 enthalpy and entropy increase strictly with temperature on every isobar and the volume decreases strictly with pressure on every isotherm, so (p,h) and (p,s) determine the state.", "quantifier": "all pairs of states of an isobar or isotherm", "why_tests_cant": "monotonicity relates pairs of states", "anchors": ["src/r2/region2_pT.rs"]}
{"id": "C56", "title": "Round trip pt - ph in the vapour", "statement": "For every state of region 2 at or above the saturation pressure at 0 C and beyond both forms of the boundary with region 3, ph applied to p and the enthalpy from pt finds region 2 and returns the temperature within 0.025 K. Refuted without the two conditions: on the boundary by Eq. 5 ph finds region 3, and below 0.000611212677444 MPa ph answers INVALID_VALUE for every enthalpy.", "quantifier": "all states of region 2", "why_tests_cant": "three independent fits with a curved boundary between them; errors peak between test points", "anchors": ["src/r2/region2_T_ph.rs", "src/common/region.rs"]}
{"id": "C57", "title": "Round trip pt - ps in the vapour", "statement": "The same for ps and T(p,s): region 2 and the temperature within 0.025 K; refuted below 0.000611212677444 MPa.", "quantifier": "all states of region 2", "why_tests_cant": "three independent fits; errors peak between test points", "anchors": ["src/r2/region2_T_ps.rs", "src/common/region.rs"]}
{"id": "C58", "title": "Region map of ph on an isobar", "statement": "On every isobar from the saturation pressure at 0 C to 100 MPa, ph finds region 1 exactly for the enthalpies of the liquid states (0 C to saturation or 350 C), region 2 exactly for those of the vapour states (saturation or the boundary with region 3 to 800 C), regions 3 or 4 exactly between, region 5 exactly above up to 2000 C and 50 MPa, INVALID_VALUE exactly elsewhere. States of region 5 are found from 800.1 C on; just above 800 C this is refuted.", "quantifier": "all p in [psat(0 C), 100] and all real h", "why_tests_cant": "the ranges must neither overlap nor leave gaps for any pressure", "anchors": ["src/common/region.rs"]}
{"id": "C59", "title": "Region map of ps on an isobar", "statement": "The same for ps: exactly the entropies of the liquid and vapour states of the isobar, 3 or 4 between, 5 above.", "quantifier": "all p in [psat(0 C), 100] and all real s", "why_tests_cant": "the ranges must neither overlap nor leave gaps for any pressure", "anchors": ["src/common/region.rs"]}
{"id": "C60", "title": "Stability of the hot gas", "statement": "For every state of region 5, v, kt, w and cp (above 2 kJ/(kg K)) from pt are positive, (dv/dp)_T is negative, the heat capacity at constant volume of the Mayer relation is positive and at most cp, and w^2 = v (cp/cv) / kt with it.", "quantifier": "all states of region 5 (800 to 2000 C, up to 50 MPa)", "why_tests_cant": "signs over a two-dimensional continuum", "anchors": ["src/r5/region5_pT.rs", "src/r5/region5_gfe.rs"]}
{"id": "C61", "title": "Monotonicity in region 5 and the joint with region 2", "statement": "In region 5 enthalpy and entropy increase with temperature (at least 2 and 2/2273.15 per kelvin), the volume decreases with pressure, and at 800 C the equations of regions 2 and 5 agree within 0.1 kJ/kg and 0.00015 kJ/(kg K).", "quantifier": "all pairs of states of an isobar or isotherm; all pressures up to 50 MPa", "why_tests_cant": "monotonicity relates pairs of states; the joint is a continuum of pressures", "anchors": ["src/r5/region5_pT.rs", "src/r2/region2_pT.rs"]}
{"id": "C62", "title": "Region map of tv on an isotherm", "statement": "For 0<=t<=350 C tv(t,v,OR) is 1 exactly for the volumes of liquid states psat(t)<p<100, 2 exactly for vapour states 1e-8<p<psat(t), 4 exactly between the two saturated volumes and -9999 exactly for the rest; for 350<t<=590 it is 2 exactly for the vapour up to the B23 pressure; for 800<t<=2000 it is 5 exactly for the states of region 5. False at p = 100 MPa: the volume of the liquid there, a state pt accepts, is rejected at every temperature.", "quantifier": "all temperatures of the three ranges and all real volumes, all fuel", "why_tests_cant": "exactly-these-volumes is a statement about two continua; the edge is one point per isotherm", "anchors": ["src/common/region.rs"]}
{"id": "C63", "title": "Thermal expansion and the Joule-Thomson coefficient", "statement": "(dv/dT)_p from pt is positive for the liquid from 5 C on and in all of regions 2 and 5; (dh/dp)_T is negative and the Joule-Thomson coefficient positive in regions 2 and 5; so v increases with t on isobars, s (and h in regions 2 and 5) decreases with p on isotherms.", "quantifier": "all states of regions 1 (from 5 C), 2 and 5; all pairs of states on an isobar or isotherm", "why_tests_cant": "signs over two-dimensional continua", "anchors": ["src/r1/region1_pT_ext.rs", "src/r2/region2_pT_ext.rs", "src/r5/region5_pT_ext.rs"]}
{"id": "C64", "title": "Region map of pv on an isobar", "statement": "For p above 0.000611213 pv(p,v,OR) is 1 for every liquid state from 9 C on, and among volumes not below that of 9 C for no others; 2 exactly for the vapour states above saturation or the B23 line up to 800 C; 4 between the saturated volumes; 5 for hot gas. False below 8 C: liquid water at 4 C is rejected at every pressure from 0.01 to 5 MPa; and liquid water at 0 C is called vapour between psat(0 C) and 0.000611213 MPa.", "quantifier": "all p in the two ranges and all real v", "why_tests_cant": "the volume minimum near 4 C and the zero-initialised limits act only in narrow bands", "anchors": ["src/common/region.rs"]}
{"id": "C65", "title": "Region map of ts on an isotherm", "statement": "For 5<=t<=350 C ts(t,s,OR) is 1 exactly for the entropies of the liquid states psat<p<100; for 0<=t<=350 it is 2 exactly for the vapour and 4 exactly between the saturated entropies; for 350<t<=590 it is 2 up to the B23 pressure, for 800<t<=2000 5 for region 5. False below 4 C: compressed water at 1 C is called wet steam at every pressure from 0.001 to 5 MPa.", "quantifier": "all temperatures of the ranges and all entropies the code accepts", "why_tests_cant": "exactly-these-entropies is a statement about two continua; the failure needs the density anomaly of water", "anchors": ["src/common/region.rs"]}
{"id": "C66", "title": "Region map of th for vapour and hot gas", "statement": "th(t,h,OR) is 2 exactly for the enthalpies of the vapour states of the isotherm (0..350 C below saturation, 350..590 C up to the B23 pressure) and 5 exactly for those of region 5, whatever the bound on the search loop.", "quantifier": "all temperatures of the ranges, all real h, all fuel", "why_tests_cant": "exactly-these-enthalpies is a statement about two continua", "anchors": ["src/common/region.rs"]}
{"id": "C67", "title": "Pressure from enthalpy and entropy in region 2", "statement": "For every state of region 2 at or above the saturation pressure of 0 C, hs(h,s,OP) asked for region 2 returns the pressure of the state within 0.0125 percent, whatever the bound on the search loop.", "quantifier": "all vapour states with p >= psat(273.15 K), all fuel", "why_tests_cant": "the accuracy of three fitted polynomials and of the choice between them over a two-dimensional region", "anchors": ["src/r2/region2_p_hs.rs"]}
{"id": "C68", "title": "Region map of hs in region 2", "statement": "For every state of region 2 from 0.013 percent above psat(0 C) to 99.8 MPa and 0.1..799 C, at least 0.1 K above the saturation line and 0.1 percent below the boundary pressure with region 3, with t <= 698 C or p >= 50 MPa, hs(h,s,OR) is 2; every property is then answered as if region 2 had been named, and the pressure is right within 0.0125 percent, whatever the bound on the search loop.", "quantifier": "all such real p, t; all property ids; all fuel", "why_tests_cant": "the seven branches and five fitted boundary equations have to agree with the state equation over a two-dimensional region", "anchors": ["src/common/region.rs:234-423", "src/common/boundaries.rs", "src/r2/region2_p_hs.rs"]}
{"id": "C69", "title": "Region map of hs in region 1", "statement": "For every state of region 1 from 0 to 310 C and from 5 kPa above the saturation pressure to 99.8 MPa, hs(h,s,OR) is 1; every property is then answered as if region 1 had been named, and the pressure is right within 0.015 MPa, whatever the bound on the search loop. The statement does not extend to 100 MPa: there every state from 0 to 310 C is rejected with -9999 although it is within the region.", "quantifier": "all such real p, t; all property ids; all fuel", "why_tests_cant": "the fitted lower and upper boundary curves in (h,s) have to enclose a two-dimensional region; the gap at the top isobar is a few J/kg wide", "anchors": ["src/common/region.rs:234-423", "src/common/boundaries.rs", "src/r1/region1_p_hs.rs"]}
{"id": "C70", "title": "Static dielectric constant over its range", "statement": "In exact arithmetic the static dielectric constant is 1 at zero density, strictly increasing in density (0..1100 kg/m3) and strictly decreasing in temperature (273.15..2273.15 K); hence OSDC of pt exceeds 1 in regions 1, 2 and 5, grows with pressure on every isotherm of these regions and falls with temperature on every isobar (from 5 C in the liquid).", "quantifier": "all real densities and temperatures of the range; all states of regions 1, 2, 5", "why_tests_cant": "monotonicity of a twelve-term correlation over a two-dimensional domain; only two published values exist", "anchors": ["src/common/transport_further.rs:134-161", "src/common/propertry_pairs.rs:40-107"]}
{"id": "C71", "title": "Viscosity and thermal conductivity over their range", "statement": "In exact arithmetic viscosity and conductivity are positive for every density and every temperature of 273.15..2273.15 K, so that ODV and OTC of pt (regions 1, 2, 5) and tv (region 3) are positive; the viscosity rises with temperature up to the critical density and falls above 966 kg/m3; the conductivity of the dilute gas rises with temperature and that of the fluid above 550 K rises with density.", "quantifier": "all real densities and temperatures of the stated ranges; all pressures and volumes for the sign", "why_tests_cant": "signs and slopes over a two-dimensional domain", "anchors": ["src/common/transport_further.rs:36-113"]}
{"id": "C72", "title": "Region map of th for liquid water and wet steam", "statement": "For 0<=t<250 C th(t,h,OR) is 1 exactly for h'<h<=h(100 MPa,t) and 4 exactly for the rest of h'..h''; up to 235 C the former are exactly the enthalpies of the liquid above the saturation pressure, because dh/dp>0 there. False for wet steam at every temperature up to 235 C: some wet state is called region 1. False for the liquid from 250 C to 350 C: no enthalpy is found in region 1; 4 is returned exactly for h'..h'' and -9999 below h', so that every liquid state of 275..325 C up to 12.34 MPa is rejected.", "quantifier": "all temperatures of 0..350 C, all real h, all fuel", "why_tests_cant": "exactly-these-enthalpies and never-region-1 are statements about continua; they rest on the sign of dh/dp over two-dimensional domains", "anchors": ["src/common/region.rs:559-655"]}
{"id": "C73", "title": "Round trip of wet states with automatic region", "statement": "In exact arithmetic a wet state given by (p,h), (p,s) or (p,v) for 0.000611213<p<=16.5291642526045 MPa, 0<x<1, or by (t,s) or (t,v) for 0<=t<=350 C, 0<=x<=1, without naming the region, returns for every output id what px or tx return for that quality; for (t,h) this holds from 250 C on, and below it above the enthalpy of the liquid at 100 MPa. False for (t,h) at every temperature up to 235 C: some state of positive quality comes back with quality 0.", "quantifier": "all pressures or temperatures of the range, all qualities, all output ids but the region number", "why_tests_cant": "combines the region search over a continuum with every output id", "anchors": ["src/common/region.rs", "src/r4/region4.rs", "src/common/propertry_pairs.rs:110-137"]}
{"id": "C74", "title": "px and tx describe the same saturated states", "statement": "In exact arithmetic, for every quality and every output id, px at the saturation pressure of T returns what tx returns at T, for 0<=t<=350-1e-10 C and 350<t<=373.946-1e-5 C; and tx at the saturation temperature of p returns what px returns at p, for 0.00061121267745<=p<=16.5291642526045 MPa and psat(623.15 K)<p<=22.0639 MPa. False at both ends: px rejects the saturation pressure of 647.096 K that tx returns, and tx rejects the saturation temperature of the lowest pressure px accepts.", "quantifier": "all temperatures or pressures of the range, all qualities, all output ids", "why_tests_cant": "an identity between two code paths over a continuum of states and every output id; the ends differ by less than a test would resolve", "anchors": ["src/r4/region4_pTx.rs:17-231", "src/rust_if97.rs:180-220"]}
{"id": "C75", "title": "Energies of wet steam and growth with the quality", "statement": "In exact arithmetic, for wet steam with 0<=t<=350 C (tx) or 0.00061121267745<=p<=16.5291642526045 MPa (px) and 0<=x<=1: OH = OU + 1000 p OV, OG = OH - T OS, OF = OU - T OS, OE = OH - 273.16 OS; OH, OS and OV strictly increase with the quality; the enthalpy of the saturated liquid strictly increases with the temperature up to 235 C.", "quantifier": "all temperatures or pressures of the range, all qualities", "why_tests_cant": "identities and orderings over a continuum of states", "anchors": ["src/r4/region4_pTx.rs:17-231", "src/rust_if97.rs:180-220"]}
{"id": "C76", "title": "Region map of tv and ts between 350 and 590 C", "statement": "In exact arithmetic tv and ts choose region 3 above the critical temperature up to 590 C exactly for the values from that of pt at 100 MPa (region 3) up to, not including, that of the vapour on the B23 line; from 350 C to the critical temperature region 3 is chosen between the saturated steam and the B23 line and between 100 MPa and the saturated liquid, region 4 between the saturated values returned by tx, unless the value is one of region 2; outside 0 to 2000 C, and for ts outside the entropy range, the error codes are returned.", "quantifier": "all temperatures of the range, all volumes and entropies", "why_tests_cant": "a case distinction over a two-dimensional continuum with closed and open ends", "anchors": ["src/common/region.rs:484-556", "src/common/region.rs:658-733"]}
