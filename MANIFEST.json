{
 "claims": [
  {
   "property": "C01",
   "status": "proved",
   "theorems": [
    "C01_echo"
   ],
   "note": "any arithmetic, any region argument"
  },
  {
   "property": "C02",
   "status": "proved",
   "theorems": [
    "C02_px",
    "C02_hx",
    "C02_sx",
    "C02_tx"
   ],
   "note": "any arithmetic"
  },
  {
   "property": "C03",
   "status": "proved",
   "theorems": [
    "C03_region_closed"
   ],
   "note": "any arithmetic and libm; for hs, tv, th when the call returns"
  },
  {
   "property": "C04",
   "status": "proved",
   "theorems": [
    "C04_auto_explicit",
    "C04_float",
    "C04_unfinished"
   ],
   "note": ""
  },
  {
   "property": "C05",
   "status": "proved",
   "theorems": [
    "C05_errors"
   ],
   "note": "binary64, any libm"
  },
  {
   "property": "C06",
   "status": "proved",
   "theorems": [
    "C06_nan"
   ],
   "note": "binary64, any libm"
  },
  {
   "property": "C07",
   "status": "proved",
   "theorems": [
    "C07_px",
    "C07_px_refuted",
    "C07_hx_refuted",
    "C07_sx_refuted",
    "C07_tx_refuted"
   ],
   "note": "REFUTED as stated: the full statement is refuted for every libm"
  },
  {
   "property": "C08",
   "status": "proved",
   "theorems": [
    "C08_bad_p",
    "C08_bad_T",
    "C08_bad_p5",
    "C08_total"
   ],
   "note": "binary64; the converse assumes that powi(x,4) is a number for 0<=x<=3"
  },
  {
   "property": "C09",
   "status": "proved",
   "theorems": [
    "C09_float",
    "C09_real",
    "C09_defined"
   ],
   "note": "binary64 against the library's boundary functions, and exact arithmetic against the published equations"
  },
  {
   "property": "C10",
   "status": "proved",
   "theorems": [
    "C10_hole",
    "C10_region_refuted"
   ],
   "note": "REFUTED as stated: the full statement is refuted"
  },
  {
   "property": "C11",
   "status": "proved",
   "theorems": [
    "C11_band"
   ],
   "note": "binary64, any libm"
  },
  {
   "property": "C12",
   "status": "proved",
   "theorems": [
    "C12_quality",
    "C12_quality_explicit"
   ],
   "note": ""
  },
  {
   "property": "C13",
   "status": "proved",
   "theorems": [
    "C13_unknown",
    "C13_unknown_explicit",
    "C13_px",
    "C13_tx",
    "C13_hx",
    "C13_sx"
   ],
   "note": "pt in region 4 is not single-phase, see C11"
  },
  {
   "property": "C14",
   "status": "proved",
   "theorems": [
    "C14_c",
    "C14_stdcall",
    "C14_python"
   ],
   "note": ""
  },
  {
   "property": "C15",
   "status": "proved",
   "theorems": [
    "C15_constants",
    "C15_helpers"
   ],
   "note": ""
  },
  {
   "property": "C16",
   "status": "proved",
   "theorems": [
    "C16_ids"
   ],
   "note": ""
  },
  {
   "property": "C17",
   "status": "proved",
   "theorems": [
    "C17_density",
    "C17_density_auto",
    "C17_density_input",
    "C17_volume"
   ],
   "note": "any arithmetic"
  },
  {
   "property": "C18",
   "status": "proved",
   "theorems": [
    "C18_wet_refuted",
    "C18_wet_never",
    "C18_wet_product",
    "C18_wet_hot",
    "C18_wet_hot_t"
   ],
   "note": "REFUTED as stated: exact arithmetic; the full statement is refuted, for every wet state"
  },
  {
   "property": "C19",
   "status": "proved",
   "theorems": [
    "C19_steps",
    "C19_exact",
    "C19_exact_combined",
    "C19_region1",
    "C19_region2",
    "C19_region3",
    "C19_rest",
    "C19_backward",
    "C19_subregions"
   ],
   "note": "any arithmetic for the plain/steps agreement; the one exception is C20"
  },
  {
   "property": "C20",
   "status": "proved",
   "theorems": [
    "C20_dropped",
    "C20_full_table_refuted"
   ],
   "note": "REFUTED as stated: the full statement is refuted; the exact difference is proved for all p, T"
  },
  {
   "property": "C21",
   "status": "proved",
   "theorems": [
    "C21_volume",
    "C21_entropy",
    "C21_maxwell"
   ],
   "note": "exact arithmetic; regions 1, 2, 5"
  },
  {
   "property": "C22",
   "status": "proved",
   "theorems": [
    "C22_enthalpy",
    "C22_entropy"
   ],
   "note": "exact arithmetic; regions 1, 2, 5"
  },
  {
   "property": "C23",
   "status": "proved",
   "theorems": [
    "C23_dvdt",
    "C23_dvdp"
   ],
   "note": "exact arithmetic; regions 1, 2, 5"
  },
  {
   "property": "C24",
   "status": "proved",
   "theorems": [
    "C24_energies",
    "C24_energies_region3"
   ],
   "note": "exact arithmetic"
  },
  {
   "property": "C25",
   "status": "proved",
   "theorems": [
    "C25_coefficients",
    "C25_pressure",
    "C25_region3"
   ],
   "note": "exact arithmetic"
  },
  {
   "property": "C26",
   "status": "proved",
   "theorems": [
    "C26_mayer",
    "C26_mayer_region3",
    "C26_mayer_region5_refuted",
    "C26_region5"
   ],
   "note": "REFUTED as stated: exact arithmetic; false in region 5, where the returned cv is characterised"
  },
  {
   "property": "C27",
   "status": "proved",
   "theorems": [
    "C27_sound",
    "C27_sound_cv",
    "C27_sound_region3",
    "C27_isentropic",
    "C27_isentropic_region3"
   ],
   "note": "exact arithmetic"
  },
  {
   "property": "C28",
   "status": "proved",
   "theorems": [
    "C28_enthalpy",
    "C28_ijtc_refuted",
    "C28_jtc",
    "C28_region3"
   ],
   "note": "REFUTED as stated: exact arithmetic; the isothermal throttling coefficient is refuted (factor 0.001)"
  },
  {
   "property": "C29",
   "status": "proved",
   "theorems": [
    "C29_exergy",
    "C29_region3",
    "C29_region3_refuted"
   ],
   "note": "REFUTED as stated: exact arithmetic; refuted in region 3"
  },
  {
   "property": "C30",
   "status": "proved",
   "theorems": [
    "C30_helmholtz",
    "C30_dvdp"
   ],
   "note": "exact arithmetic"
  },
  {
   "property": "C31",
   "status": "proved",
   "theorems": [
    "C31_fugacity",
    "C31_fugacity_region3"
   ],
   "note": "exact arithmetic"
  },
  {
   "property": "C32",
   "status": "proved",
   "theorems": [
    "C32_round_T",
    "C32_round_T_range",
    "C32_round_p",
    "C32_round_T_refuted",
    "C32_round_p_refuted"
   ],
   "note": "REFUTED as stated: exact arithmetic; the full statement is refuted at the two ends of the line"
  },
  {
   "property": "C33",
   "status": "proved",
   "theorems": [
    "C33_increasing",
    "C33_increasing_p"
   ],
   "note": "exact arithmetic"
  },
  {
   "property": "C34",
   "status": "proved",
   "theorems": [
    "C34_pTp",
    "C34_TpT"
   ],
   "note": "exact arithmetic"
  },
  {
   "property": "C35",
   "status": "proved",
   "theorems": [
    "C35_px_low",
    "C35_px_high",
    "C35_tx_low",
    "C35_tx_high",
    "C35_px",
    "C35_tx",
    "C35_density_refuted"
   ],
   "note": "REFUTED as stated: bit for bit in any arithmetic and over the reals; refuted for the density above 623.15 K"
  },
  {
   "property": "C36",
   "status": "proved",
   "theorems": [
    "C36_p",
    "C36_t",
    "C36_distinct_p",
    "C36_distinct_t",
    "C36_p_low",
    "C36_t_low"
   ],
   "note": "exact arithmetic; the saturated values are proved distinct up to 623.15 K"
  },
  {
   "property": "C37",
   "status": "proved",
   "theorems": [
    "C37_returns",
    "C37_bounded",
    "C37_stable",
    "C37_tv_region2",
    "C37_pv_up",
    "C37_pv_down",
    "C37_pv_zoom"
   ],
   "note": "all binary64 inputs; the maths library is only asked to keep the fourth power of a number in [0,3] below 100"
  },
  {
   "property": "C38",
   "status": "proved",
   "theorems": [
    "C38_refuted",
    "C38_returns",
    "C38_bounds"
   ],
   "note": "REFUTED as stated: at h = 1700, s = 3.825043 (an ordinary wet state, region found by the library) the pressure search cycles for ever; every state outside region 4 or in the range of the explicit equation returns"
  },
  {
   "property": "C39",
   "status": "proved",
   "theorems": [
    "C39_T_region5",
    "C39_hs_region5",
    "C39_p_region5",
    "C39_p_region5_refuted",
    "C39_p_region2",
    "C39_p_region1",
    "C39_tv_region1_refuted",
    "C39_T_region1",
    "C39_T_region1_refuted"
   ],
   "note": "REFUTED as stated: all binary64 inputs; the full statement is refuted for tv/th/ts pressures (early returns) and tv in region 1 (no clamp); what holds is proved"
  },
  {
   "property": "C40",
   "status": "proved",
   "theorems": [
    "C40_rtsec1",
    "C40_rtsec2"
   ],
   "note": "any arithmetic, any target function"
  },
  {
   "property": "C41",
   "status": "proved",
   "theorems": [
    "C41_hx_range",
    "C41_sx_range",
    "C41_hx_bracket",
    "C41_sx_bracket",
    "C41_accepted"
   ],
   "note": "range for all binary64 inputs; sign change and accuracy in exact arithmetic"
  },
  {
   "property": "C42",
   "status": "proved",
   "theorems": [
    "C42_okv",
    "C42_otd",
    "C42_otd_region3",
    "C42_opr_region3",
    "C42_okv_region3",
    "C42_opr",
    "C42_okv_region3_refuted",
    "C42_opr_refuted"
   ],
   "note": "REFUTED as stated: the relations that hold are proved bit for bit in any arithmetic; the two false ones are refuted"
  },
  {
   "property": "C43",
   "status": "proved",
   "theorems": [
    "C43_temperature",
    "C43_pt",
    "C43_range",
    "C43_outside",
    "C43_critical",
    "C43_positive",
    "C43_decreasing"
   ],
   "note": "range for all binary64 inputs; sign and monotonicity in exact arithmetic"
  },
  {
   "property": "C44",
   "status": "proved",
   "theorems": [
    "C44_hot",
    "C44_hot_refuted"
   ],
   "note": "REFUTED as stated: the full statement is refuted; every hot state is rejected"
  },
  {
   "property": "C45",
   "status": "proved",
   "theorems": [
    "C45_subregion",
    "C45_strip",
    "C45_subregion_c_refuted",
    "C45_subregion_k_refuted"
   ],
   "note": "REFUTED as stated: exact arithmetic; the full statement is refuted, the map is right outside the strip"
  },
  {
   "property": "C46",
   "status": "proved",
   "theorems": [
    "C46_cdecl_refuted",
    "C46_only_pt",
    "C46_stdcall",
    "C46_same_names"
   ],
   "note": "REFUTED as stated: the full statement is refuted by pt; every other export is right"
  },
  {
   "property": "C47",
   "status": "proved",
   "theorems": [
    "C47_explicit_region"
   ],
   "note": ""
  },
  {
   "property": "C48",
   "status": "proved",
   "theorems": [
    "C48_temperature_given",
    "C48_tv",
    "C48_wet_pressure",
    "C48_wet_temperature",
    "C48_wet_hs",
    "C48_pt_region3",
    "C48_pressure_given",
    "C48_hs",
    "C48_region3",
    "C48_region3_temperature_given"
   ],
   "note": ""
  },
  {
   "property": "C49",
   "status": "proved",
   "theorems": [
    "C49_liquid",
    "C49_sound"
   ],
   "note": "exact arithmetic"
  },
  {
   "property": "C50",
   "status": "proved",
   "theorems": [
    "C50_enthalpy",
    "C50_entropy",
    "C50_volume",
    "C50_unique"
   ],
   "note": "exact arithmetic"
  },
  {
   "property": "C51",
   "status": "proved",
   "theorems": [
    "C51_region",
    "C51_temperature"
   ],
   "note": "exact arithmetic"
  },
  {
   "property": "C52",
   "status": "proved",
   "theorems": [
    "C52_region",
    "C52_temperature"
   ],
   "note": "exact arithmetic"
  },
  {
   "property": "C53",
   "status": "proved",
   "theorems": [
    "C53_pressure"
   ],
   "note": "exact arithmetic"
  },
  {
   "property": "C54",
   "status": "proved",
   "theorems": [
    "C54_vapour",
    "C54_sound"
   ],
   "note": "exact arithmetic"
  },
  {
   "property": "C55",
   "status": "proved",
   "theorems": [
    "C55_enthalpy",
    "C55_entropy",
    "C55_volume",
    "C55_unique"
   ],
   "note": "exact arithmetic"
  },
  {
   "property": "C56",
   "status": "proved",
   "theorems": [
    "C56_region",
    "C56_temperature",
    "C56_boundary_refuted",
    "C56_low_pressure_refuted"
   ],
   "note": "REFUTED as stated: exact arithmetic; the unconditional claim is refuted on the boundary with region 3 and below P_MIN"
  },
  {
   "property": "C57",
   "status": "proved",
   "theorems": [
    "C57_region",
    "C57_temperature",
    "C57_low_pressure_refuted"
   ],
   "note": "REFUTED as stated: exact arithmetic; the unconditional claim is refuted below P_MIN"
  },
  {
   "property": "C58",
   "status": "proved",
   "theorems": [
    "C58_liquid",
    "C58_vapour",
    "C58_rest",
    "C58_hot",
    "C58_hot_refuted"
   ],
   "note": "REFUTED as stated: exact arithmetic; for region 5 from 800.1 C on, refuted just above 800 C"
  },
  {
   "property": "C59",
   "status": "proved",
   "theorems": [
    "C59_liquid",
    "C59_vapour",
    "C59_rest",
    "C59_hot"
   ],
   "note": "exact arithmetic; for region 5 from 800.2 C on"
  },
  {
   "property": "C60",
   "status": "proved",
   "theorems": [
    "C60_gas",
    "C60_sound"
   ],
   "note": "exact arithmetic; cv by the Mayer relation, since the library's region 5 cv is wrong (C26)"
  },
  {
   "property": "C61",
   "status": "proved",
   "theorems": [
    "C61_enthalpy",
    "C61_entropy",
    "C61_volume",
    "C61_joint"
   ],
   "note": "exact arithmetic"
  },
  {
   "property": "C62",
   "status": "proved",
   "theorems": [
    "C62_liquid",
    "C62_vapour",
    "C62_wet",
    "C62_dense_vapour",
    "C62_hot",
    "C62_edge",
    "C62_edge_refuted"
   ],
   "note": "REFUTED as stated: exact arithmetic; refuted at 100 MPa"
  },
  {
   "property": "C63",
   "status": "proved",
   "theorems": [
    "C63_liquid",
    "C63_vapour",
    "C63_gas",
    "C63_volume",
    "C63_pressure"
   ],
   "note": "exact arithmetic"
  },
  {
   "property": "C64",
   "status": "proved",
   "theorems": [
    "C64_liquid",
    "C64_liquid_found",
    "C64_vapour",
    "C64_wet",
    "C64_hot",
    "C64_cold",
    "C64_cold_refuted",
    "C64_triple",
    "C64_triple_refuted"
   ],
   "note": "REFUTED as stated: exact arithmetic; refuted for liquid water near 4 C and just above the triple point"
  },
  {
   "property": "C65",
   "status": "proved",
   "theorems": [
    "C65_liquid",
    "C65_vapour",
    "C65_wet",
    "C65_dense_vapour",
    "C65_hot",
    "C65_cold",
    "C65_cold_refuted"
   ],
   "note": "REFUTED as stated: exact arithmetic; refuted for liquid water below 4 C"
  },
  {
   "property": "C66",
   "status": "proved",
   "theorems": [
    "C66_vapour",
    "C66_dense_vapour",
    "C66_hot"
   ],
   "note": "exact arithmetic"
  },
  {
   "property": "C67",
   "status": "proved",
   "theorems": [
    "C67_pressure"
   ],
   "note": "exact arithmetic; region 2 given, p >= psat(0 C)"
  },
  {
   "property": "C68",
   "status": "proved",
   "theorems": [
    "C68_region",
    "C68_properties",
    "C68_pressure"
   ],
   "note": "exact arithmetic; states kept clear of the boundaries; hot states below 50 MPa, which the code tries in region 5 first, are left out"
  },
  {
   "property": "C69",
   "status": "proved",
   "theorems": [
    "C69_region",
    "C69_properties",
    "C69_pressure",
    "C69_refuted",
    "C69_top_isobar"
   ],
   "note": "REFUTED as stated: exact arithmetic; up to 310 C, 5 kPa above saturation; refuted on the isobar of 100 MPa"
  },
  {
   "property": "C70",
   "status": "proved",
   "theorems": [
    "C70_vacuum",
    "C70_density",
    "C70_temperature",
    "C70_above_one",
    "C70_liquid_p",
    "C70_vapour_p",
    "C70_gas_p",
    "C70_liquid_t",
    "C70_vapour_t",
    "C70_gas_t"
   ],
   "note": "exact arithmetic"
  },
  {
   "property": "C71",
   "status": "proved",
   "theorems": [
    "C71_positive",
    "C71_pt",
    "C71_tv",
    "C71_viscosity_light",
    "C71_viscosity_dense",
    "C71_conductivity_dilute",
    "C71_conductivity_dense"
   ],
   "note": "exact arithmetic"
  },
  {
   "property": "C72",
   "status": "proved",
   "theorems": [
    "C72_cold",
    "C72_liquid",
    "C72_hot",
    "C72_slope",
    "C72_slope_saturated",
    "C72_liquid_refuted",
    "C72_wet_refuted"
   ],
   "note": "REFUTED as stated: exact arithmetic; the liquid of 250..350 C and wet steam of low quality are misjudged by the code"
  },
  {
   "property": "C73",
   "status": "proved",
   "theorems": [
    "C73_p",
    "C73_t",
    "C73_enthalpy_hot",
    "C73_enthalpy_cold",
    "C73_enthalpy_refuted"
   ],
   "note": "REFUTED as stated: exact arithmetic; refuted for (t,h) up to 235 C"
  },
  {
   "property": "C74",
   "status": "proved",
   "theorems": [
    "C74_t",
    "C74_p",
    "C74_high_refuted",
    "C74_low_refuted"
   ],
   "note": "REFUTED as stated: exact arithmetic; refuted at the two ends of the saturation line"
  },
  {
   "property": "C75",
   "status": "proved",
   "theorems": [
    "C75_energies_t",
    "C75_energies_p",
    "C75_quality_t",
    "C75_quality_p",
    "C75_liquid_enthalpy"
   ],
   "note": "exact arithmetic"
  },
  {
   "property": "C76",
   "status": "proved",
   "theorems": [
    "C76_tv_super",
    "C76_tv_sub",
    "C76_tv_out",
    "C76_ts_super",
    "C76_ts_sub",
    "C76_ts_out"
   ],
   "note": "exact arithmetic"
  }
 ]
}