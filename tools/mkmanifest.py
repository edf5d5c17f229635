#!/usr/bin/env python3
"""Write MANIFEST.json from the claim table below, checking that every theorem
name occurs in rocq/theories/Props*.v and every property id in properties.jsonl."""
import json, re, glob, os
ROOT = os.path.join(os.path.dirname(os.path.abspath(__file__)), "..")
CLAIMS = {
 "C01": ("proved", "C01_echo", "any arithmetic, any region argument"),
 "C02": ("proved", "C02_px C02_hx C02_sx C02_tx", "any arithmetic"),
 "C03": ("proved", "C03_region_closed", "any arithmetic and libm; for hs, tv, th when the call returns"),
 "C04": ("proved", "C04_auto_explicit C04_float C04_unfinished", ""),
 "C05": ("proved", "C05_errors", "binary64, any libm"),
 "C06": ("proved", "C06_nan", "binary64, any libm"),
 "C07": ("proved", "C07_px C07_px_refuted C07_hx_refuted C07_sx_refuted C07_tx_refuted", "the full statement is refuted for every libm"),
 "C08": ("proved", "C08_bad_p C08_bad_T C08_bad_p5 C08_total", "binary64; the converse assumes that powi(x,4) is a number for 0<=x<=3"),
 "C09": ("proved", "C09_float C09_real C09_defined", "binary64 against the library's boundary functions, and exact arithmetic against the published equations"),
 "C10": ("proved", "C10_hole C10_region_refuted", "the full statement is refuted"),
 "C11": ("proved", "C11_band", "binary64, any libm"),
 "C12": ("proved", "C12_quality C12_quality_explicit", ""),
 "C13": ("proved", "C13_unknown C13_unknown_explicit C13_px C13_tx C13_hx C13_sx", "pt in region 4 is not single-phase, see C11"),
 "C14": ("proved", "C14_c C14_stdcall C14_python", ""),
 "C15": ("proved", "C15_constants C15_helpers", ""),
 "C16": ("proved", "C16_ids", ""),
 "C17": ("proved", "C17_density C17_density_auto C17_density_input C17_volume", "any arithmetic"),
 "C18": ("proved", "C18_wet_refuted C18_wet_never C18_wet_product C18_wet_hot C18_wet_hot_t", "exact arithmetic; the full statement is refuted, for every wet state"),
 "C19": ("proved", "C19_steps C19_exact C19_exact_combined C19_region1 C19_region2 C19_region3 C19_rest C19_backward C19_subregions", "any arithmetic for the plain/steps agreement; the one exception is C20"),
 "C20": ("proved", "C20_dropped C20_full_table_refuted", "the full statement is refuted; the exact difference is proved for all p, T"),
 "C21": ("proved", "C21_volume C21_entropy C21_maxwell", "exact arithmetic; regions 1, 2, 5"),
 "C22": ("proved", "C22_enthalpy C22_entropy", "exact arithmetic; regions 1, 2, 5"),
 "C23": ("proved", "C23_dvdt C23_dvdp", "exact arithmetic; regions 1, 2, 5"),
 "C24": ("proved", "C24_energies C24_energies_region3", "exact arithmetic"),
 "C25": ("proved", "C25_coefficients C25_pressure C25_region3", "exact arithmetic"),
 "C26": ("proved", "C26_mayer C26_mayer_region3 C26_mayer_region5_refuted C26_region5", "exact arithmetic; false in region 5, where the returned cv is characterised"),
 "C27": ("proved", "C27_sound C27_sound_cv C27_sound_region3 C27_isentropic C27_isentropic_region3", "exact arithmetic"),
 "C28": ("proved", "C28_enthalpy C28_ijtc_refuted C28_jtc C28_region3", "exact arithmetic; the isothermal throttling coefficient is refuted (factor 0.001)"),
 "C29": ("proved", "C29_exergy C29_region3 C29_region3_refuted", "exact arithmetic; refuted in region 3"),
 "C30": ("proved", "C30_helmholtz C30_dvdp", "exact arithmetic"),
 "C31": ("proved", "C31_fugacity C31_fugacity_region3", "exact arithmetic"),
 "C32": ("proved", "C32_round_T C32_round_T_range C32_round_p C32_round_T_refuted C32_round_p_refuted", "exact arithmetic; the full statement is refuted at the two ends of the line"),
 "C33": ("proved", "C33_increasing C33_increasing_p", "exact arithmetic"),
 "C34": ("proved", "C34_pTp C34_TpT", "exact arithmetic"),
 "C35": ("proved", "C35_px_low C35_px_high C35_tx_low C35_tx_high C35_px C35_tx C35_density_refuted", "bit for bit in any arithmetic and over the reals; refuted for the density above 623.15 K"),
 "C36": ("proved", "C36_p C36_t C36_distinct_p C36_distinct_t C36_p_low C36_t_low", "exact arithmetic; the saturated values are proved distinct up to 623.15 K"),
"C37": ("proved", "C37_returns C37_bounded C37_stable C37_tv_region2 C37_pv_up C37_pv_down C37_pv_zoom", "all binary64 inputs; the maths library is only asked to keep the fourth power of a number in [0,3] below 100"),
 "C38": ("proved", "C38_refuted C38_returns C38_bounds", "at h = 1700, s = 3.825043 (an ordinary wet state, region found by the library) the pressure search cycles for ever; every state outside region 4 or in the range of the explicit equation returns"),
 "C39": ("proved", "C39_T_region5 C39_hs_region5 C39_p_region5 C39_p_region5_refuted C39_p_region2 C39_p_region1 C39_tv_region1_refuted C39_T_region1 C39_T_region1_refuted", "all binary64 inputs; the full statement is refuted for tv/th/ts pressures (early returns) and tv in region 1 (no clamp); what holds is proved"),
 "C40": ("proved", "C40_rtsec1 C40_rtsec2", "any arithmetic, any target function"),
 "C41": ("proved", "C41_hx_range C41_sx_range C41_hx_bracket C41_sx_bracket C41_accepted", "range for all binary64 inputs; sign change and accuracy in exact arithmetic"),
 "C42": ("proved", "C42_okv C42_otd C42_otd_region3 C42_opr_region3 C42_okv_region3 C42_opr C42_okv_region3_refuted C42_opr_refuted", "the relations that hold are proved bit for bit in any arithmetic; the two false ones are refuted"),
 "C43": ("proved", "C43_temperature C43_pt C43_range C43_outside C43_critical C43_positive C43_decreasing", "range for all binary64 inputs; sign and monotonicity in exact arithmetic"),
 "C44": ("proved", "C44_hot C44_hot_refuted", "the full statement is refuted; every hot state is rejected"),
 "C45": ("proved", "C45_subregion C45_strip C45_subregion_c_refuted C45_subregion_k_refuted", "exact arithmetic; the full statement is refuted, the map is right outside the strip"),
 "C46": ("proved", "C46_cdecl_refuted C46_only_pt C46_stdcall C46_same_names", "the full statement is refuted by pt; every other export is right"),
 "C47": ("proved", "C47_explicit_region", ""),
 "C48": ("proved", "C48_temperature_given C48_tv C48_wet_pressure C48_wet_temperature C48_wet_hs C48_pt_region3 C48_pressure_given C48_hs C48_region3 C48_region3_temperature_given", ""),
 "C49": ("proved", "C49_liquid C49_sound", "exact arithmetic"),
 "C50": ("proved", "C50_enthalpy C50_entropy C50_volume C50_unique", "exact arithmetic"),
 "C51": ("proved", "C51_region C51_temperature", "exact arithmetic"),
 "C52": ("proved", "C52_region C52_temperature", "exact arithmetic"),
 "C53": ("proved", "C53_pressure", "exact arithmetic"),
 "C54": ("proved", "C54_vapour C54_sound", "exact arithmetic"),
 "C55": ("proved", "C55_enthalpy C55_entropy C55_volume C55_unique", "exact arithmetic"),
 "C56": ("proved", "C56_region C56_temperature C56_boundary_refuted C56_low_pressure_refuted", "exact arithmetic; the unconditional claim is refuted on the boundary with region 3 and below P_MIN"),
 "C57": ("proved", "C57_region C57_temperature C57_low_pressure_refuted", "exact arithmetic; the unconditional claim is refuted below P_MIN"),
 "C58": ("proved", "C58_liquid C58_vapour C58_rest C58_hot C58_hot_refuted", "exact arithmetic; for region 5 from 800.1 C on, refuted just above 800 C"),
 "C59": ("proved", "C59_liquid C59_vapour C59_rest C59_hot", "exact arithmetic; for region 5 from 800.2 C on"),
 "C60": ("proved", "C60_gas C60_sound", "exact arithmetic; cv by the Mayer relation, since the library's region 5 cv is wrong (C26)"),
 "C61": ("proved", "C61_enthalpy C61_entropy C61_volume C61_joint", "exact arithmetic"),
 "C62": ("proved", "C62_liquid C62_vapour C62_wet C62_dense_vapour C62_hot C62_edge C62_edge_refuted", "exact arithmetic; refuted at 100 MPa"),
 "C63": ("proved", "C63_liquid C63_vapour C63_gas C63_volume C63_pressure", "exact arithmetic"),
 "C64": ("proved", "C64_liquid C64_liquid_found C64_vapour C64_wet C64_hot C64_cold C64_cold_refuted C64_triple C64_triple_refuted", "exact arithmetic; refuted for liquid water near 4 C and just above the triple point"),
 "C65": ("proved", "C65_liquid C65_vapour C65_wet C65_dense_vapour C65_hot C65_cold C65_cold_refuted", "exact arithmetic; refuted for liquid water below 4 C"),
 "C66": ("proved", "C66_vapour C66_dense_vapour C66_hot", "exact arithmetic"),
 "C67": ("proved", "C67_pressure", "exact arithmetic; region 2 given, p >= psat(0 C)"),
 "C68": ("proved", "C68_region C68_properties C68_pressure", "exact arithmetic; states kept clear of the boundaries; hot states below 50 MPa, which the code tries in region 5 first, are left out"),
 "C69": ("proved", "C69_region C69_properties C69_pressure C69_refuted C69_top_isobar", "exact arithmetic; up to 310 C, 5 kPa above saturation; refuted on the isobar of 100 MPa"),
 "C70": ("proved", "C70_vacuum C70_density C70_temperature C70_above_one C70_liquid_p C70_vapour_p C70_gas_p C70_liquid_t C70_vapour_t C70_gas_t", "exact arithmetic"),
 "C71": ("proved", "C71_positive C71_pt C71_tv C71_viscosity_light C71_viscosity_dense C71_conductivity_dilute C71_conductivity_dense", "exact arithmetic"),
 "C72": ("proved", "C72_cold C72_liquid C72_hot C72_slope C72_slope_saturated C72_liquid_refuted C72_wet_refuted", "exact arithmetic; the liquid of 250..350 C and wet steam of low quality are misjudged by the code"),
 "C73": ("proved", "C73_p C73_t C73_enthalpy_hot C73_enthalpy_cold C73_enthalpy_refuted", "exact arithmetic; refuted for (t,h) up to 235 C"),
 "C74": ("proved", "C74_t C74_p C74_high_refuted C74_low_refuted", "exact arithmetic; refuted at the two ends of the saturation line"),
 "C75": ("proved", "C75_energies_t C75_energies_p C75_quality_t C75_quality_p C75_liquid_enthalpy", "exact arithmetic"),
 "C76": ("proved", "C76_tv_super C76_tv_sub C76_tv_out C76_ts_super C76_ts_sub C76_ts_out", "exact arithmetic"),
}
def main():
    props = [json.loads(l)["id"] for l in open(f"{ROOT}/properties.jsonl")]
    src = "".join(open(f).read() for f in glob.glob(f"{ROOT}/rocq/theories/Props*.v"))
    names = set(re.findall(r"^Theorem (\w+)", src, re.M))
    claims = []
    used = set()
    for p in props:
        if p not in CLAIMS:
            print("no claim for", p); continue
        st, th, note = CLAIMS[p]
        th = th.split()
        for t in th:
            assert t in names, t
        used |= set(th)
        if any(t.endswith("_refuted") for t in th):
            note = "REFUTED as stated: " + note
        claims.append({"property": p, "status": st, "theorems": th, "note": note})
    for p in CLAIMS:
        assert p in props, p
    print("unused theorems:", sorted(names - used))
    json.dump({"claims": claims}, open(f"{ROOT}/MANIFEST.json", "w"), indent=1)
main()
