{
 "claims": [
  {
   "property": "C01",
   "status": "proved",
   "theorems": [
    "C01_components_in_range"
   ],
   "note": "binary32, all oracles; reachable is an inductive history of client operations"
  },
  {
   "property": "C02",
   "status": "proved",
   "theorems": [
    "C02_hue_setter_total",
    "C02_hue_setter_exact",
    "C85_setters_store"
   ],
   "note": ""
  },
  {
   "property": "C03",
   "status": "proved",
   "theorems": [
    "C03_get_component",
    "C03_set_component"
   ],
   "note": ""
  },
  {
   "property": "C04",
   "status": "proved",
   "theorems": [
    "C04_eight_bit_alpha_in_range",
    "C04_alpha_setter_clamps",
    "C04_alpha_setter_value",
    "C04_alpha_setter_bytes"
   ],
   "note": ""
  },
  {
   "property": "C05",
   "status": "partial",
   "theorems": [
    "C05_fresh_alpha_refuted",
    "C05_fresh_alpha_partial"
   ],
   "note": "REFUTED: hsv(0,0,0,7) has alpha 7 because the base constructor does not clamp. Holds for the two 8-bit classes."
  },
  {
   "property": "C06",
   "status": "proved",
   "theorems": [
    "C06_equality"
   ],
   "note": ""
  },
  {
   "property": "C07",
   "status": "proved",
   "theorems": [
    "C07_add_throws",
    "C07_add_result",
    "C07_add_commutes"
   ],
   "note": ""
  },
  {
   "property": "C08",
   "status": "partial",
   "theorems": [
    "C08_sum_usable_refuted",
    "C07_add_result"
   ],
   "note": "REFUTED: a + b has dynamic class color_base; every conversion of it is undefined behaviour. Its type tag and components are right (C07)."
  },
  {
   "property": "C09",
   "status": "proved",
   "theorems": [
    "C09_copy_preserves",
    "C09_copy_alpha"
   ],
   "note": ""
  },
  {
   "property": "C10",
   "status": "partial",
   "theorems": [
    "C10_assignment_refuted",
    "C10_assignment_partial"
   ],
   "note": "REFUTED: operator= does not copy alpha and RGB space. The rest is copied."
  },
  {
   "property": "C11",
   "status": "partial",
   "theorems": [
    "C11_from_base_refuted",
    "C11_from_base_partial"
   ],
   "note": "REFUTED for rgb_truecolor, rgb_deepcolor, grey_truecolor and cieluv (throws for every colour of the own type); proved for the other eleven classes."
  },
  {
   "property": "C12",
   "status": "proved",
   "theorems": [
    "C12_hex6",
    "C12_hex8",
    "C12_bad_character",
    "C12_bad_length"
   ],
   "note": ""
  },
  {
   "property": "C13",
   "status": "partial",
   "theorems": [
    "C13_malformed_refuted",
    "C13_malformed_partial"
   ],
   "note": "REFUTED: \"12#456\" reads an uninitialised variable. Strings without an inner '#' are decoded or rejected."
  },
  {
   "property": "C14",
   "status": "proved",
   "theorems": [
    "C14_int_decodes",
    "C14_int_agrees_with_string",
    "C14_predefined"
   ],
   "note": ""
  },
  {
   "property": "C15",
   "status": "proved",
   "theorems": [
    "C15_multiply_divide",
    "C15_alpha_zero",
    "C15_frame",
    "C15_multiply_in_range"
   ],
   "note": ""
  },
  {
   "property": "C16",
   "status": "partial",
   "theorems": [
    "C16_alpha_divide_refuted"
   ],
   "note": "REFUTED: white with alpha 1/2 gets components 2."
  },
  {
   "property": "C17",
   "status": "proved",
   "theorems": [
    "C17_gamma_selects",
    "C17_inverse_gamma_selects",
    "C17_outside",
    "C17_any_sort",
    "C17_order_irrelevant",
    "C17_add_part",
    "C17_add_inverse_part",
    "C17_set_parts",
    "C17_set_inverse_parts",
    "C17_copy"
   ],
   "note": "binary32, borders not NaN"
  },
  {
   "property": "C18",
   "status": "proved",
   "theorems": [
    "C18_power_presets",
    "C18_sRGB",
    "C18_sRGB_back",
    "C18_UHDTV",
    "C18_UHDTV_back"
   ],
   "note": "exact arithmetic"
  },
  {
   "property": "C19",
   "status": "partial",
   "theorems": [
    "C19_romm_refuted",
    "C19_romm_partial"
   ],
   "note": "REFUTED for every x in (0.001953/16, 0.001953]; proved elsewhere."
  },
  {
   "property": "C20",
   "status": "proved",
   "theorems": [
    "C20_power_monotone"
   ],
   "note": "exact arithmetic"
  },
  {
   "property": "C21",
   "status": "proved",
   "theorems": [
    "C21_entries",
    "C21_scalar_entries",
    "C21_identity",
    "C21_mul_assoc",
    "C21_transpose",
    "C21_transpose_mul",
    "C21_add_comm",
    "C21_add_assoc",
    "C21_sub_add",
    "C21_distributes",
    "C21_mul_vector",
    "C21_construction"
   ],
   "note": "exact arithmetic, any size"
  },
  {
   "property": "C22",
   "status": "proved",
   "theorems": [
    "C22_determinante",
    "C22_determinante_3x3",
    "C22_det_laws",
    "C22_invert",
    "C22_invert_singular"
   ],
   "note": "exact arithmetic, any size"
  },
  {
   "property": "C23",
   "status": "partial",
   "theorems": [
    "C23_nonsquare_refuted",
    "C23_transpose_refuted",
    "C23_product_wide_refuted",
    "C23_product_tall_refuted",
    "C23_construction_tall_refuted",
    "C23_construction_wide_refuted",
    "C23_vector_tall_refuted",
    "C23_vector_wide_refuted",
    "C23_square_times_rectangular_partial",
    "C23_wrong_length_partial"
   ],
   "note": "REFUTED for every non-square shape: transpose, product and construction read out of bounds or store wrong values; partial: a square matrix times a rectangular one."
  },
  {
   "property": "C24",
   "status": "proved",
   "theorems": [
    "C24_chromaticity_sums_to_1",
    "C24_to_chromaticity_and_back",
    "C24_to_tristimulus_and_back",
    "C24_white_from_xy",
    "C24_white_from_XYZ"
   ],
   "note": "exact arithmetic"
  },
  {
   "property": "C25",
   "status": "partial",
   "theorems": [
    "C25_white_presets_refuted",
    "C25_white_presets_partial",
    "C25_all_presets",
    "C25_misplaced_point"
   ],
   "note": "REFUTED for 16 of the 40 presets (misplaced decimal point in X); the other 24 agree within 0.1 percent."
  },
  {
   "property": "C26",
   "status": "proved",
   "theorems": [
    "C26_constructor",
    "C26_set_white_point"
   ],
   "note": "exact arithmetic; non-degenerate: no three of red, green, blue, white on a line"
  },
  {
   "property": "C27",
   "status": "proved",
   "theorems": [
    "C27_presets"
   ],
   "note": "exact arithmetic, all 20 presets"
  },
  {
   "property": "C28",
   "status": "proved",
   "theorems": [
    "C28_to_type",
    "C28_convertTo",
    "C28_reachable_wf",
    "C28_preset_spaces_usable"
   ],
   "note": "binary32, all oracles"
  },
  {
   "property": "C29",
   "status": "partial",
   "theorems": [
    "C29_convertTo_total_refuted",
    "C28_convertTo"
   ],
   "note": "REFUTED: convertTo returns nullptr for LCH_AB and LCH_UV; proved for the 13 other targets."
  },
  {
   "property": "C30",
   "status": "proved",
   "theorems": [
    "C30_aliasing"
   ],
   "note": ""
  },
  {
   "property": "C31",
   "status": "proved",
   "theorems": [
    "C31_unchanged",
    "C31_footprint"
   ],
   "note": ""
  },
  {
   "property": "C32",
   "status": "partial",
   "theorems": [
    "C32_never_modifies_refuted",
    "C31_unchanged",
    "C31_footprint"
   ],
   "note": "REFUTED: converting a deep RGB colour to a CIE type linearises the argument in place. Everything else is unchanged (C31)."
  },
  {
   "property": "C33",
   "status": "proved",
   "theorems": [
    "C33_alpha",
    "C33_reported"
   ],
   "note": "binary32; rounding error at most one half"
  },
  {
   "property": "C34",
   "status": "partial",
   "theorems": [
    "C34_black_hsl_refuted"
   ],
   "note": "REFUTED: an HSL colour of lightness 0 loses its alpha."
  },
  {
   "property": "C35",
   "status": "proved",
   "theorems": [
    "C35_space"
   ],
   "note": ""
  },
  {
   "property": "C36",
   "status": "proved",
   "theorems": [
    "C36_rgb",
    "C36_grey"
   ],
   "note": "binary32"
  },
  {
   "property": "C37",
   "status": "proved",
   "theorems": [
    "C37_cmyk",
    "C37_black"
   ],
   "note": "exact arithmetic; black in binary32"
  },
  {
   "property": "C38",
   "status": "proved",
   "theorems": [
    "C38_hsv"
   ],
   "note": "exact arithmetic"
  },
  {
   "property": "C39",
   "status": "proved",
   "theorems": [
    "C39_hsl"
   ],
   "note": "exact arithmetic"
  },
  {
   "property": "C40",
   "status": "proved",
   "theorems": [
    "C40_hcy"
   ],
   "note": "exact arithmetic"
  },
  {
   "property": "C41",
   "status": "partial",
   "theorems": [
    "C41_hsi_refuted",
    "C41_hsi_partial"
   ],
   "note": "REFUTED: every non-grey colour with three positive channels comes back with a zero channel. Proved for colours with a zero channel and for greys."
  },
  {
   "property": "C42",
   "status": "partial",
   "theorems": [
    "C42_near_360_refuted",
    "C38_hsv"
   ],
   "note": "REFUTED for every such colour: the hue is clamped to 359. All other hues: C38."
  },
  {
   "property": "C43",
   "status": "proved",
   "theorems": [
    "C43_hsv_hsl"
   ],
   "note": "exact arithmetic"
  },
  {
   "property": "C44",
   "status": "partial",
   "theorems": [
    "C44_hsl_hsv_refuted"
   ],
   "note": "REFUTED: HSL (0, 1/2, 1/4) becomes an HSV colour that denotes another RGB colour (operator precedence in line 705)."
  },
  {
   "property": "C45",
   "status": "proved",
   "theorems": [
    "C45_xyy",
    "C45_black"
   ],
   "note": "exact arithmetic"
  },
  {
   "property": "C46",
   "status": "proved",
   "theorems": [
    "C46_lab"
   ],
   "note": "exact arithmetic"
  },
  {
   "property": "C47",
   "status": "partial",
   "theorems": [
    "C47_luv_refuted"
   ],
   "note": "REFUTED for every colour with X/Yw up to 0.008856 or in [0.0089, 1]: the Y that comes back is X/Yw."
  },
  {
   "property": "C48",
   "status": "partial",
   "theorems": [
    "C48_lch_refuted"
   ],
   "note": "REFUTED for all Lab colours (l, a, 0) with a >= 0 except a = 12800/156: a comes back as (a + 128) * 100 / 256."
  },
  {
   "property": "C49",
   "status": "proved",
   "theorems": [
    "C49_grey_deep",
    "C49_grey_true",
    "C49_rgb_deep",
    "C49_rgb_true",
    "C49_once"
   ],
   "note": "exact arithmetic"
  },
  {
   "property": "C50",
   "status": "proved",
   "theorems": [
    "C50_xyz"
   ],
   "note": "exact arithmetic"
  },
  {
   "property": "C51",
   "status": "proved",
   "theorems": [
    "C51_add",
    "C51_mix",
    "C51_subtract",
    "C53_add",
    "C53_mix",
    "C53_subtract",
    "C53_typed"
   ],
   "note": "infinite weights included; NaN: C88"
  },
  {
   "property": "C52",
   "status": "partial",
   "theorems": [
    "C52_zero_refuted"
   ],
   "note": "REFUTED: weight 0 is rejected for all operands."
  },
  {
   "property": "C53",
   "status": "proved",
   "theorems": [
    "C53_add",
    "C53_mix",
    "C53_subtract",
    "C53_typed"
   ],
   "note": ""
  },
  {
   "property": "C54",
   "status": "partial",
   "theorems": [
    "C54_all_types_refuted",
    "C53_add",
    "C53_mix",
    "C53_subtract"
   ],
   "note": "REFUTED: null pointer for HSI and HCY, and for xyY and CIELUV with mix and subtract. The other types: C53."
  },
  {
   "property": "C55",
   "status": "proved",
   "theorems": [
    "C55_formula",
    "C55_self",
    "C55_one",
    "C55_symmetric",
    "C55_generic"
   ],
   "note": "exact arithmetic"
  },
  {
   "property": "C56",
   "status": "proved",
   "theorems": [
    "C56_empty",
    "C56_total",
    "C56_means",
    "C56_order"
   ],
   "note": "means in exact arithmetic; existence, type and range in binary32"
  },
  {
   "property": "C57",
   "status": "partial",
   "theorems": [
    "C57_cmyk_alpha_refuted",
    "C57_formula"
   ],
   "note": "REFUTED: the alpha is the mean of the black components plus the alpha of the last colour divided by the number of colours."
  },
  {
   "property": "C58",
   "status": "partial",
   "theorems": [
    "C58_include_alpha_refuted",
    "C58_ignored"
   ],
   "note": "REFUTED: include_alpha has no effect for HSI, HSL, HCY, Lab and LCh colours."
  },
  {
   "property": "C59",
   "status": "proved",
   "theorems": [
    "C59_null",
    "C59_spaces",
    "C59_blend_accepts",
    "C59_composite_accepts",
    "C92_lch_refuted"
   ],
   "note": "colours of a CIE type need a valid space; LCh sources do not throw but return nullptr (C92)"
  },
  {
   "property": "C60",
   "status": "proved",
   "theorems": [
    "C60_formula"
   ],
   "note": "exact arithmetic"
  },
  {
   "property": "C61",
   "status": "proved",
   "theorems": [
    "C61_range"
   ],
   "note": ""
  },
  {
   "property": "C62",
   "status": "proved",
   "theorems": [
    "C62_dual",
    "C62_over_opaque",
    "C62_clear"
   ],
   "note": "exact arithmetic"
  },
  {
   "property": "C63",
   "status": "proved",
   "theorems": [
    "C63_opaque"
   ],
   "note": ""
  },
  {
   "property": "C64",
   "status": "proved",
   "theorems": [
    "C64_laws",
    "C64_textbook",
    "C64_bounded"
   ],
   "note": "exact arithmetic"
  },
  {
   "property": "C65",
   "status": "partial",
   "theorems": [
    "C65_color_burn_refuted",
    "C65_color_burn_inverted",
    "C65_soft_light_refuted",
    "C65_soft_light_deviation"
   ],
   "note": "REFUTED: color burn is inverted everywhere; soft light jumps at source 1/2 and turns a black backdrop grey."
  },
  {
   "property": "C66",
   "status": "partial",
   "theorems": [
    "C66_range_refuted",
    "C66_range_partial"
   ],
   "note": "REFUTED: linear dodge of white with white at alpha 1/2. Proved for the modes with a bounded function."
  },
  {
   "property": "C67",
   "status": "partial",
   "theorems": [
    "C67_null_refuted",
    "C67_spaces_refuted"
   ],
   "note": "REFUTED: null source is undefined behaviour, different spaces are accepted."
  },
  {
   "property": "C68",
   "status": "proved",
   "theorems": [
    "C68_same_white"
   ],
   "note": "All methods, every libm."
  },
  {
   "property": "C69",
   "status": "proved",
   "theorems": [
    "C69_white_to_white",
    "C69_xyz_scaling"
   ],
   "note": "Proved with the stronger bound 0.000015 * B for white points in [0,B], B <= 100 (2.25e-5 for B = 1.5)."
  },
  {
   "property": "C70",
   "status": "proved",
   "theorems": [
    "C70_space",
    "C70_matrices"
   ],
   "note": "All methods where defined; matrices over exact arithmetic for non-degenerate primaries."
  },
  {
   "property": "C71",
   "status": "partial",
   "theorems": [
    "C71_grey_refuted",
    "C71_bradford_partial"
   ],
   "note": "REFUTED: undefined behaviour for every grey colour with a different white point; partial: defined for all other convertible types."
  },
  {
   "property": "C72",
   "status": "proved",
   "theorems": [
    "C72_metric",
    "C72_squared",
    "C72_value"
   ],
   "note": ""
  },
  {
   "property": "C73",
   "status": "partial",
   "theorems": [
    "C73_symmetric_refuted",
    "C73_same_chroma_partial"
   ],
   "note": "REFUTED for all colours of equal lightness and different chroma on the a axis; proved for colours of equal chroma."
  },
  {
   "property": "C74",
   "status": "partial",
   "theorems": [
    "C74_space_refuted",
    "C74_rgb_partial"
   ],
   "note": "REFUTED: the calculation space is not passed on; proved: the result is the square root of the squared RGB distance."
  },
  {
   "property": "C75",
   "status": "partial",
   "theorems": [
    "C75_unchanged_refuted",
    "C75_unchanged_partial"
   ],
   "note": "REFUTED by witness for RGB_DEEP colours and all Lab-based distances; proved for the other types and for the RGB-based distances."
  },
  {
   "property": "C76",
   "status": "proved",
   "theorems": [
    "C76_rejects",
    "C76_shape",
    "C76_hues",
    "C76_named"
   ],
   "note": "hues in exact arithmetic"
  },
  {
   "property": "C77",
   "status": "partial",
   "theorems": [
    "C77_negative_refuted"
   ],
   "note": "REFUTED for every colour: a negative n returns the colour alone; INT_MIN overflows."
  },
  {
   "property": "C78",
   "status": "partial",
   "theorems": [
    "C78_alpha_refuted",
    "C78_black_refuted",
    "C78_alpha_partial"
   ],
   "note": "REFUTED: an rgb_truecolor of alpha 51 gets a complement of alpha 255; opaque black gets a transparent one. Proved for the types that are not 8-bit when the HSL form is not black."
  },
  {
   "property": "C79",
   "status": "proved",
   "theorems": [
    "C79_analogous_rejects",
    "C79_analogous",
    "C79_analogous_hues",
    "C79_monochromatic_rejects",
    "C79_monochromatic_mode",
    "C79_monochromatic"
   ],
   "note": ""
  },
  {
   "property": "C80",
   "status": "proved",
   "theorems": [
    "C80_hsl",
    "C80_rgb",
    "C80_rgb32"
   ],
   "note": ""
  },
  {
   "property": "C81",
   "status": "proved",
   "theorems": [
    "C81_formula",
    "C81_black",
    "C81_grey"
   ],
   "note": "exact arithmetic"
  },
  {
   "property": "C82",
   "status": "partial",
   "theorems": [
    "C82_unchanged_refuted",
    "C82_aliased",
    "C82_unchanged_partial"
   ],
   "note": "REFUTED: the HSL functions change an HSL argument in place. Other types are unchanged."
  },
  {
   "property": "C83",
   "status": "partial",
   "theorems": [
    "C83_reference_refuted",
    "C83_reference_partial"
   ],
   "note": "REFUTED for every LCh colour (null pointer dereferenced). Proved for the other types."
  },
  {
   "property": "C84",
   "status": "partial",
   "theorems": [
    "C84_index_setter_refuted",
    "C01_components_in_range"
   ],
   "note": "REFUTED: set_component(-128, 0) on a Lab colour stores -128. C01 covers all other classes and components."
  },
  {
   "property": "C85",
   "status": "proved",
   "theorems": [
    "C85_constructors_store",
    "C85_setters_store"
   ],
   "note": ""
  },
  {
   "property": "C86",
   "status": "partial",
   "theorems": [
    "C86_piecewise_monotone_refuted",
    "C86_piecewise_monotone_partial"
   ],
   "note": "REFUTED for sRGB gamma, UHDTV gamma, ROMM inverse gamma; proved for the other three curves."
  },
  {
   "property": "C87",
   "status": "proved",
   "theorems": [
    "C87_add",
    "C87_mix",
    "C87_subtract",
    "C87_typed"
   ],
   "note": ""
  },
  {
   "property": "C88",
   "status": "partial",
   "theorems": [
    "C88_nan_rejected_refuted"
   ],
   "note": "REFUTED for all operands."
  },
  {
   "property": "C89",
   "status": "partial",
   "theorems": [
    "C89_alpha_range_refuted"
   ],
   "note": "REFUTED: 1 + 1 gives alpha 2, 0 - 1 gives alpha -1."
  },
  {
   "property": "C90",
   "status": "partial",
   "theorems": [
    "C90_destination_only_refuted",
    "C90_normal_partial"
   ],
   "note": "REFUTED for the destination region only, which is atop. The other three cases are proved."
  },
  {
   "property": "C91",
   "status": "partial",
   "theorems": [
    "C91_vivid_light_refuted",
    "C91_vivid_light_deviation"
   ],
   "note": "REFUTED: vivid_light(0, 1/2) is 1/2, not 0."
  },
  {
   "property": "C92",
   "status": "partial",
   "theorems": [
    "C92_lch_refuted",
    "C59_blend_accepts",
    "C59_composite_accepts"
   ],
   "note": "REFUTED for every LCh source; proved for the other types."
  },
  {
   "property": "C93",
   "status": "proved",
   "theorems": [
    "C93_formula",
    "C93_bounded_modes"
   ],
   "note": "exact arithmetic"
  },
  {
   "property": "C94",
   "status": "proved",
   "theorems": [
    "C94_total",
    "C94_values"
   ],
   "note": ""
  },
  {
   "property": "C95",
   "status": "proved",
   "theorems": [
    "C95_typed",
    "C95_alpha"
   ],
   "note": ""
  },
  {
   "property": "C96",
   "status": "partial",
   "theorems": [
    "C96_hsl_alpha_refuted"
   ],
   "note": "REFUTED: opaque black becomes transparent."
  },
  {
   "property": "C97",
   "status": "proved",
   "theorems": [
    "C97_hsl_formula"
   ],
   "note": "exact arithmetic"
  },
  {
   "property": "C98",
   "status": "proved",
   "theorems": [
    "C98_geometric"
   ],
   "note": "exact arithmetic"
  },
  {
   "property": "C99",
   "status": "partial",
   "theorems": [
    "C99_lch_refuted",
    "C76_shape",
    "C79_monochromatic",
    "C100_split"
   ],
   "note": "REFUTED for every LCh colour; proved for the other types."
  },
  {
   "property": "C100",
   "status": "proved",
   "theorems": [
    "C100_split",
    "C100_split_rejects"
   ],
   "note": ""
  },
  {
   "property": "C101",
   "status": "proved",
   "theorems": [
    "C101_weighted"
   ],
   "note": ""
  },
  {
   "property": "C102",
   "status": "proved",
   "theorems": [
    "C102_cie94"
   ],
   "note": ""
  },
  {
   "property": "C103",
   "status": "proved",
   "theorems": [
    "C103_sane"
   ],
   "note": ""
  },
  {
   "property": "C104",
   "status": "proved",
   "theorems": [
    "C104_total"
   ],
   "note": ""
  },
  {
   "property": "C105",
   "status": "proved",
   "theorems": [
    "C105_symmetric"
   ],
   "note": ""
  },
  {
   "property": "C106",
   "status": "partial",
   "theorems": [
    "C106_published_refuted",
    "C106_deviations_partial",
    "C106_choices_partial"
   ],
   "note": "REFUTED for all colours of equal lightness on the positive a axis."
  },
  {
   "property": "C107",
   "status": "partial",
   "theorems": [
    "C107_cie94_refuted",
    "C107_cmc_refuted",
    "C107_cie00_refuted"
   ],
   "note": "REFUTED by witnesses, for every C library with correctly rounded squares (and, for Delta E 2000, overflow of e^121 and sin(inf) = NaN)."
  },
  {
   "property": "C108",
   "status": "proved",
   "theorems": [
    "C108_cmc"
   ],
   "note": ""
  },
  {
   "property": "C109",
   "status": "partial",
   "theorems": [
    "C109_symmetric_refuted"
   ],
   "note": "REFUTED for every grey and every colour of the same lightness on the positive a axis."
  },
  {
   "property": "C110",
   "status": "partial",
   "theorems": [
    "C110_lch_refuted",
    "C70_space"
   ],
   "note": "REFUTED: null for both LCh types, every method; C70_space covers the other types."
  },
  {
   "property": "C111",
   "status": "partial",
   "theorems": [
    "C111_unchanged_refuted",
    "C70_space"
   ],
   "note": "REFUTED for RGB_DEEP; C70_space shows that all other types are unchanged."
  },
  {
   "property": "C112",
   "status": "proved",
   "theorems": [
    "C112_alpha"
   ],
   "note": ""
  },
  {
   "property": "C113",
   "status": "proved",
   "theorems": [
    "C113_linear",
    "C113_xyz_scaling",
    "C113_inverse"
   ],
   "note": ""
  },
  {
   "property": "C114",
   "status": "proved",
   "theorems": [
    "C114_same_value"
   ],
   "note": ""
  },
  {
   "property": "C115",
   "status": "proved",
   "theorems": [
    "C115_cat02",
    "C115_cmccat2000",
    "C115_luminance"
   ],
   "note": ""
  },
  {
   "property": "C116",
   "status": "proved",
   "theorems": [
    "C116_bradford_white"
   ],
   "note": ""
  },
  {
   "property": "C117",
   "status": "partial",
   "theorems": [
    "C117_black_refuted",
    "C117_any_type_refuted",
    "C117_linear_partial"
   ],
   "note": "REFUTED for the full Bradford and CMCCAT97 methods, for all white points and every libm; partial: simplified methods over exact arithmetic."
  },
  {
   "property": "C118",
   "status": "partial",
   "theorems": [
    "C118_null_refuted"
   ],
   "note": "REFUTED: undefined behaviour."
  },
  {
   "property": "C119",
   "status": "partial",
   "theorems": [
    "C119_dark_surround_refuted"
   ],
   "note": "REFUTED for all colours, white points and surround factors."
  },
  {
   "property": "C120",
   "status": "partial",
   "theorems": [
    "C120_access_partial",
    "C120_row_partial",
    "C120_column_partial",
    "C120_negative_refuted",
    "C120_large_refuted"
   ],
   "note": "REFUTED for negative indices and for indices beyond the length of the message literal; partial: for all other indices."
  },
  {
   "property": "C121",
   "status": "proved",
   "theorems": [
    "C121_sums",
    "C121_too_small",
    "C121_scalars"
   ],
   "note": ""
  },
  {
   "property": "C122",
   "status": "proved",
   "theorems": [
    "C122_resize",
    "C122_same",
    "C122_back"
   ],
   "note": ""
  },
  {
   "property": "C123",
   "status": "proved",
   "theorems": [
    "C123_equality",
    "C123_equality_float",
    "C123_assign",
    "C123_copy",
    "C123_construct",
    "C123_fill",
    "C123_compound"
   ],
   "note": ""
  },
  {
   "property": "C124",
   "status": "proved",
   "theorems": [
    "C124_named_colours"
   ],
   "note": "All names, getters, heaps and libms."
  },
  {
   "property": "C125",
   "status": "partial",
   "theorems": [
    "C125_shared_refuted"
   ],
   "note": "REFUTED for every factory."
  },
  {
   "property": "C126",
   "status": "proved",
   "theorems": [
    "C126_names",
    "C126_values"
   ],
   "note": ""
  },
  {
   "property": "C127",
   "status": "partial",
   "theorems": [
    "C127_remove_refuted"
   ],
   "note": "REFUTED: undefined behaviour for every call."
  },
  {
   "property": "C128",
   "status": "partial",
   "theorems": [
    "C128_border_change_refuted",
    "C128_copy_shares_refuted",
    "C128_by_value_partial",
    "C128_add_partial"
   ],
   "note": "REFUTED; partial: unmodified pieces behave as values."
  },
  {
   "property": "C129",
   "status": "partial",
   "theorems": [
    "C129_null_refuted",
    "C129_add_null_refuted",
    "C129_single_null_partial"
   ],
   "note": "REFUTED: undefined behaviour in the comparator of the sort."
  },
  {
   "property": "C130",
   "status": "partial",
   "theorems": [
    "C130_rebuilt_refuted",
    "C130_part_refuted",
    "C130_same_pieces_partial"
   ],
   "note": "REFUTED for rebuilt curves and for non-null functions; partial: curves sharing their pieces."
  },
  {
   "property": "C131",
   "status": "partial",
   "theorems": [
    "C131_default_space_refuted"
   ],
   "note": "REFUTED: every colour becomes black."
  },
  {
   "property": "C132",
   "status": "partial",
   "theorems": [
    "C132_degenerate_refuted"
   ],
   "note": "REFUTED for all collinear primaries."
  },
  {
   "property": "C133",
   "status": "proved",
   "theorems": [
    "C133_white_equality",
    "C133_white_equality_float"
   ],
   "note": ""
  },
  {
   "property": "C134",
   "status": "proved",
   "theorems": [
    "C134_safe",
    "C134_from_scratch",
    "C134_types"
   ],
   "note": ""
  },
  {
   "property": "C135",
   "status": "proved",
   "theorems": [
    "C135_frame",
    "C135_pure",
    "C135_well_formed"
   ],
   "note": ""
  },
  {
   "property": "C136",
   "status": "proved",
   "theorems": [
    "C136_hsv",
    "C136_hsl",
    "C136_hsi",
    "C136_hcy",
    "C136_cmyk"
   ],
   "note": ""
  },
  {
   "property": "C137",
   "status": "proved",
   "theorems": [
    "C137_hsv",
    "C137_hsl",
    "C137_hcy",
    "C137_cmyk"
   ],
   "note": ""
  },
  {
   "property": "C138",
   "status": "partial",
   "theorems": [
    "C138_hsi_refuted",
    "C138_hsi_partial"
   ],
   "note": "REFUTED with the exact deviation; partial: S = 0, S = 1 or I = 0."
  },
  {
   "property": "C139",
   "status": "proved",
   "theorems": [
    "C139_grey_deep",
    "C139_grey_true",
    "C139_true_deep",
    "C139_deep_true",
    "C139_grey_true_rgb_true",
    "C139_grey_true_rgb_deep",
    "C139_grey_true_grey_deep",
    "C139_grey_deep_rgb_deep",
    "C139_grey_deep_rgb_true",
    "C139_grey_deep_grey_true",
    "C139_rgb_true_grey_deep",
    "C139_rgb_deep_grey_true"
   ],
   "note": ""
  },
  {
   "property": "C140",
   "status": "partial",
   "theorems": [
    "C140_lab_refuted",
    "C140_luv_refuted",
    "C140_lab_deviation",
    "C140_luv_deviation"
   ],
   "note": "REFUTED for all colours of chroma below 50, with the exact deviation."
  },
  {
   "property": "C141",
   "status": "proved",
   "theorems": [
    "C141_lab",
    "C141_luv"
   ],
   "note": ""
  },
  {
   "property": "C142",
   "status": "proved",
   "theorems": [
    "C142_to_lab",
    "C142_from_lab"
   ],
   "note": ""
  },
  {
   "property": "C143",
   "status": "partial",
   "theorems": [
    "C143_luv_refuted",
    "C143_luv_deviation"
   ],
   "note": "REFUTED for every white point, with the exact deviation."
  },
  {
   "property": "C144",
   "status": "proved",
   "theorems": [
    "C144_luv"
   ],
   "note": ""
  },
  {
   "property": "C145",
   "status": "proved",
   "theorems": [
    "C145_add",
    "C145_subtract",
    "C145_add_through",
    "C145_subtract_through"
   ],
   "note": ""
  },
  {
   "property": "C146",
   "status": "proved",
   "theorems": [
    "C146_add",
    "C146_mix",
    "C146_subtract",
    "C146_self",
    "C146_across"
   ],
   "note": ""
  },
  {
   "property": "C147",
   "status": "partial",
   "theorems": [
    "C147_rgb_refuted",
    "C147_hsv_refuted",
    "C147_partial"
   ],
   "note": "REFUTED for RGB and HSV; partial: grey, CMYK, XYZ, xyY and CIELUV."
  },
  {
   "property": "C148",
   "status": "partial",
   "theorems": [
    "C148_opaque_refuted",
    "C148_eight_bit",
    "C148_deep_partial"
   ],
   "note": "REFUTED for a deep source and an 8-bit destination; partial: deep colours."
  },
  {
   "property": "C149",
   "status": "proved",
   "theorems": [
    "C149_hsv",
    "C149_hsl",
    "C149_hcy",
    "C149_cmyk",
    "C149_blue"
   ],
   "note": ""
  },
  {
   "property": "C150",
   "status": "proved",
   "theorems": [
    "C150_cmyk"
   ],
   "note": ""
  },
  {
   "property": "C151",
   "status": "proved",
   "theorems": [
    "C151_hsv",
    "C151_hsl",
    "C151_hcy"
   ],
   "note": ""
  },
  {
   "property": "C152",
   "status": "partial",
   "theorems": [
    "C152_hsv_refuted",
    "C152_hsl_refuted"
   ],
   "note": "REFUTED for every colour of the wedge red - green >= 60 (blue - green) + 31, green < blue <= red."
  },
  {
   "property": "C153",
   "status": "proved",
   "theorems": [
    "C153_linear"
   ],
   "note": "Example: the sRGB preset."
  },
  {
   "property": "C154",
   "status": "proved",
   "theorems": [
    "C154_bytes",
    "C154_deep",
    "C154_bright",
    "C154_romm"
   ],
   "note": "Assumes accurate_pow (relative error 2^-20), which a correctly rounded powf meets (C154_pow). PAL/SECAM and DCI P3 below 6 depend on the rounding of powf and are left open; CIE RGB is refuted in C155."
  },
  {
   "property": "C155",
   "status": "partial",
   "theorems": [
    "C155_romm_refuted",
    "C155_cie_refuted"
   ],
   "note": "REFUTED: ROMM bytes 1..7 all come back smaller; CIE RGB red comes back black. Proved for the other presets as C154."
  },
  {
   "property": "C156",
   "status": "partial",
   "theorems": [
    "C156_temporaries_refuted",
    "C156_count",
    "C156_distance"
   ],
   "note": "REFUTED: every conversion of two or more steps leaves unreachable objects. The exact number of new objects is proved for all conversions and distance functions."
  },
  {
   "property": "C157",
   "status": "proved",
   "theorems": [
    "C157_xyy"
   ],
   "note": "Assumes accurate_pow, met by a correctly rounded powf (C154_pow)."
  },
  {
   "property": "C158",
   "status": "proved",
   "theorems": [
    "C158_lab"
   ],
   "note": "Assumes accurate_pow, met by a correctly rounded powf (C154_pow)."
  },
  {
   "property": "C159",
   "status": "proved",
   "theorems": [
    "C159_nearest_byte"
   ],
   "note": ""
  },
  {
   "property": "C160",
   "status": "proved",
   "theorems": [
    "C160_operators"
   ],
   "note": ""
  },
  {
   "property": "C161",
   "status": "partial",
   "theorems": [
    "C161_grey_refuted",
    "C161_rgb_refuted"
   ],
   "note": "REFUTED: (r + g + b) / 3 is stored unrounded in an 8-bit grey colour"
  },
  {
   "property": "C162",
   "status": "proved",
   "theorems": [
    "C162_whole"
   ],
   "note": ""
  },
  {
   "property": "C163",
   "status": "partial",
   "theorems": [
    "C163_green_refuted"
   ],
   "note": "REFUTED: pure green of Adobe RGB comes back with red between 50 and 70, for every powf accurate to 8 units in the last place."
  },
  {
   "property": "C164",
   "status": "proved",
   "theorems": [
    "C164_translucent"
   ],
   "note": ""
  },
  {
   "property": "C165",
   "status": "proved",
   "theorems": [
    "C165_operators"
   ],
   "note": ""
  },
  {
   "property": "C166",
   "status": "proved",
   "theorems": [
    "C166_mean",
    "C166_order"
   ],
   "note": ""
  },
  {
   "property": "C167",
   "status": "partial",
   "theorems": [
    "C167_equal_few",
    "C167_equal_refuted"
   ],
   "note": "REFUTED: for 65795 equal whites the average is 255 - 2^-16; proved for up to 65793 colours."
  },
  {
   "property": "C168",
   "status": "proved",
   "theorems": [
    "C168_distance",
    "C168_squared"
   ],
   "note": "binary32; pow assumed to square within 2^-20"
  },
  {
   "property": "C169",
   "status": "proved",
   "theorems": [
    "C169_ranking"
   ],
   "note": "binary32; pow assumed to square within 2^-20"
  },
  {
   "property": "C170",
   "status": "proved",
   "theorems": [
    "C170_symmetry"
   ],
   "note": "binary32; pow assumed even for the exponent 2"
  },
  {
   "property": "C171",
   "status": "proved",
   "theorems": [
    "C171_separation"
   ],
   "note": "binary32; pow assumed accurate to 2^-20"
  },
  {
   "property": "C172",
   "status": "proved",
   "theorems": [
    "C172_xyz",
    "C172_lightness"
   ],
   "note": "binary32; pow assumed accurate to 2^-20"
  },
  {
   "property": "C173",
   "status": "proved",
   "theorems": [
    "C173_old"
   ],
   "note": "exact arithmetic"
  },
  {
   "property": "C174",
   "status": "partial",
   "theorems": [
    "C174_nonnegative_partial",
    "C174_negative_refuted",
    "C174_half_refuted",
    "C174_overflow_refuted"
   ],
   "note": "REFUTED: nearly all negative numbers go to the wrong decimal, the float below 1/2 becomes 1, large numbers are undefined behaviour; non-negative numbers in range are rounded correctly in exact arithmetic"
  },
  {
   "property": "C175",
   "status": "proved",
   "theorems": [
    "C175_clamp",
    "C175_affine",
    "C175_back",
    "C175_between",
    "C175_degenerate"
   ],
   "note": ""
  },
  {
   "property": "C176",
   "status": "proved",
   "theorems": [
    "C176_total"
   ],
   "note": "binary32; coarse bounds on powf and atan2f assumed"
  },
  {
   "property": "C177",
   "status": "proved",
   "theorems": [
    "C177_accuracy",
    "C177_symmetry"
   ],
   "note": "binary32; pow assumed accurate to 2^-20 (accuracy) and even (symmetry) for the exponent 2"
  },
  {
   "property": "C178",
   "status": "proved",
   "theorems": [
    "C178_add",
    "C178_mix",
    "C178_subtract"
   ],
   "note": "binary32; for RGB, pow assumed to square to 2^-20 and non-negatively"
  },
  {
   "property": "C179",
   "status": "proved",
   "theorems": [
    "C179_add_grey",
    "C179_subtract"
   ],
   "note": "binary32"
  },
  {
   "property": "C180",
   "status": "proved",
   "theorems": [
    "C180_schemes",
    "C180_twice"
   ],
   "note": "exact arithmetic; hue outside the last degree (C42)"
  },
  {
   "property": "C181",
   "status": "proved",
   "theorems": [
    "C181_schemes",
    "C181_twice"
   ],
   "note": "binary32; hue outside the last degree (C42)"
  },
  {
   "property": "C182",
   "status": "proved",
   "theorems": [
    "C182_binary32",
    "C182_exact"
   ],
   "note": "the argument colour is well formed; CIE routes need a usable RGB space"
  },
  {
   "property": "C183",
   "status": "proved",
   "theorems": [
    "C183_whites",
    "C183_spaces"
   ],
   "note": "The published values are written down in Spec_Preset.v from the publications."
  },
  {
   "property": "C184",
   "status": "partial",
   "theorems": [
    "C184_srgb",
    "C184_power",
    "C184_uhdtv_refuted",
    "C184_uhdtv_deviation",
    "C184_romm_encode",
    "C184_romm_decode_partial",
    "C184_romm_decode_refuted"
   ],
   "note": "REFUTED for UHDTV: the two functions of gammaUHDTV are exchanged (C184_uhdtv_refuted, C184_uhdtv_deviation), and for the ROMM decoding function between 0.001953 and 1/32, where the linear part is missing (C184_romm_decode_refuted). Proved for all other presets."
  },
  {
   "property": "C185",
   "status": "proved",
   "theorems": [
    "C185_rgb_xyz",
    "C185_xyz_rgb",
    "C185_xyy_xyz"
   ],
   "note": ""
  },
  {
   "property": "C186",
   "status": "partial",
   "theorems": [
    "C186_xyz",
    "C186_lab",
    "C186_hsv",
    "C186_hsl",
    "C186_hsi",
    "C186_hcy",
    "C186_cmyk",
    "C186_luv_refuted"
   ],
   "note": "REFUTED for CIELUV: every grey except black gets v > 0 (C186_luv_refuted). Proved for all other types."
  },
  {
   "property": "C187",
   "status": "proved",
   "theorems": [
    "C187_associative",
    "C187_others",
    "C187_transparent",
    "C187_over_itself"
   ],
   "note": ""
  },
  {
   "property": "C188",
   "status": "proved",
   "theorems": [
    "C188_exact",
    "C188_binary32",
    "C188_dual_binary32"
   ],
   "note": ""
  },
  {
   "property": "C189",
   "status": "partial",
   "theorems": [
    "C189_hard_mix_refuted"
   ],
   "note": "REFUTED: source 0.75*2^-24 and destination 1-2^-24 give black, exchanged white (1 - 0.75*2^-24 is rounded)."
  },
  {
   "property": "C190",
   "status": "proved",
   "theorems": [
    "C190_94_below_76",
    "C190_grey_reference"
   ],
   "note": ""
  },
  {
   "property": "C191",
   "status": "proved",
   "theorems": [
    "C191_chain",
    "C191_back",
    "C191_scaling_back"
   ],
   "note": ""
  },
  {
   "property": "C192",
   "status": "proved",
   "theorems": [
    "C192_exact",
    "C192_binary32"
   ],
   "note": ""
  },
  {
   "property": "C193",
   "status": "partial",
   "theorems": [
    "C193_refuted"
   ],
   "note": "REFUTED: both components 2^-26: lighten above screen; both 0.75*2^-24: screen above linear dodge; source 1 and destination 0.75*2^-23: linear burn above multiply."
  },
  {
   "property": "C194",
   "status": "proved",
   "theorems": [
    "C194_exact",
    "C194_binary32",
    "C194_composite",
    "C194_others"
   ],
   "note": ""
  },
  {
   "property": "C195",
   "status": "proved",
   "theorems": [
    "C195_product",
    "C195_transpose",
    "C195_scaled",
    "C195_identity",
    "C195_right_inverse",
    "C195_left_inverse",
    "C195_invert_twice",
    "C195_inverse_determinant",
    "C195_inverse_of_product",
    "C195_inverse_of_transpose",
    "C195_unchanged"
   ],
   "note": ""
  },
  {
   "property": "C196",
   "status": "proved",
   "theorems": [
    "C196_hsv",
    "C196_hsl",
    "C196_hsi",
    "C196_hcy",
    "C196_hsv_back",
    "C196_hsl_back",
    "C196_hsi_back",
    "C196_hcy_back",
    "C196_cmyk",
    "C196_bytes",
    "C196_bytes_back"
   ],
   "note": ""
  },
  {
   "property": "C197",
   "status": "partial",
   "theorems": [
    "C197_refuted",
    "C197_close"
   ],
   "note": "REFUTED: 12582914/2^24 comes back as 12582915/2^24. C197_close proves the bound 2^-22."
  },
  {
   "property": "C198",
   "status": "proved",
   "theorems": [
    "C198_deep",
    "C198_bytes",
    "C198_deep_zero",
    "C198_bytes_zero",
    "C198_deep_black",
    "C198_bytes_black",
    "C198_rises"
   ],
   "note": ""
  },
  {
   "property": "C199",
   "status": "proved",
   "theorems": [
    "C199_hsl_deep",
    "C199_hsl_bytes",
    "C199_rgb_bytes"
   ],
   "note": ""
  },
  {
   "property": "C200",
   "status": "partial",
   "theorems": [
    "C200_refuted"
   ],
   "note": "REFUTED: bytes 0, 8, 86 (luma 14.5) become 15, 15, 14. C199_rgb_bytes proves the claim for every colour whose luma is not half way between two bytes."
  },
  {
   "property": "C201",
   "status": "proved",
   "theorems": [
    "C201_table",
    "C201_colours",
    "C201_transparent"
   ],
   "note": ""
  },
  {
   "property": "C202",
   "status": "proved",
   "theorems": [
    "C202_adjustments",
    "C202_blending",
    "C202_hcy",
    "C202_combination",
    "C202_analogous",
    "C202_adaptation"
   ],
   "note": ""
  },
  {
   "property": "C203",
   "status": "proved",
   "theorems": [
    "C203_add",
    "C203_add32",
    "C203_mix",
    "C203_mix32"
   ],
   "note": ""
  },
  {
   "property": "C204",
   "status": "proved",
   "theorems": [
    "C204_add32",
    "C204_mix32",
    "C204_subtract32",
    "C204_add",
    "C204_mix",
    "C204_subtract",
    "C204_between",
    "C204_ends32"
   ],
   "note": ""
  },
  {
   "property": "C205",
   "status": "proved",
   "theorems": [
    "C205_accuracy",
    "C205_squared",
    "C205_symmetric",
    "C205_triangle",
    "C205_order"
   ],
   "note": ""
  },
  {
   "property": "C206",
   "status": "proved",
   "theorems": [
    "C206_multiply",
    "C206_again",
    "C206_bytes",
    "C206_lost"
   ],
   "note": ""
  },
  {
   "property": "C207",
   "status": "partial",
   "theorems": [
    "C207_range_refuted"
   ],
   "note": "REFUTED: Lab white with alpha 1/3 comes back with a lightness above 100."
  },
  {
   "property": "C208",
   "status": "proved",
   "theorems": [
    "C208_hsv",
    "C208_hsl",
    "C208_hsi",
    "C208_hcy",
    "C208_cmyk"
   ],
   "note": "Example C208_example."
  },
  {
   "property": "C209",
   "status": "proved",
   "theorems": [
    "C209_hsv",
    "C209_hsl",
    "C209_hcy",
    "C209_cmyk"
   ],
   "note": "Examples C209_hue, C209_ink. HSI is excluded: its formula is refuted in C138."
  },
  {
   "property": "C210",
   "status": "proved",
   "theorems": [
    "C210_operators",
    "C210_component"
   ],
   "note": "Example C210_example."
  },
  {
   "property": "C211",
   "status": "proved",
   "theorems": [
    "C211_modes"
   ],
   "note": "Example C211_example; colours as in C210_example."
  },
  {
   "property": "C212",
   "status": "proved",
   "theorems": [
    "C212_hsv",
    "C212_hsl",
    "C212_hcy",
    "C212_cmyk",
    "C212_exact_hsv",
    "C212_exact_hsl",
    "C212_exact_hcy"
   ],
   "note": "Examples C212_example, C212_exact, C212_ink, C212_arc."
  },
  {
   "property": "C213",
   "status": "proved",
   "theorems": [
    "C213_mean"
   ],
   "note": "Examples C213_example, C213_pair. 8-bit types: C166."
  },
  {
   "property": "C214",
   "status": "proved",
   "theorems": [
    "C214_order",
    "C214_equal",
    "C214_order_inexact",
    "C214_equal_inexact"
   ],
   "note": "The two _inexact theorems are the last sentence of the statement. 8-bit types: C166, C167."
  },
  {
   "property": "C215",
   "status": "proved",
   "theorems": [
    "C215_exact"
   ],
   "note": "Examples C215_example, C215_saturation, C215_lightness. p = 0: C80. Alpha is kept unless the new middle is 0 (C34, C96)."
  },
  {
   "property": "C216",
   "status": "proved",
   "theorems": [
    "C216_accurate"
   ],
   "note": "Example C216_example."
  },
  {
   "property": "C217",
   "status": "proved",
   "theorems": [
    "C217_to_lab"
   ],
   "note": "Examples C217_example, C217_presets (every preset white is covered), C217_power. The exact formula: C142."
  },
  {
   "property": "C218",
   "status": "proved",
   "theorems": [
    "C218_lab_round"
   ],
   "note": "Examples C217_example, C217_presets, C217_power."
  },
  {
   "property": "C219",
   "status": "proved",
   "theorems": [
    "C219_accurate"
   ],
   "note": "Example C219_example."
  },
  {
   "property": "C220",
   "status": "partial",
   "theorems": [
    "C220_dark_refuted"
   ],
   "note": "REFUTED: with Y = 0 and X + Z > 0 the colour comes back as (0, 0, 0), also in exact arithmetic. Holds for Y > 0 (C45_xyy) and for black (C45_black)."
  },
  {
   "property": "C221",
   "status": "proved",
   "theorems": [
    "C221_add",
    "C221_mix",
    "C221_subtract"
   ],
   "note": "Example C221_example. Supported types: 13 for add, 11 for mix and subtract; the others give a null pointer (C54)."
  },
  {
   "property": "C222",
   "status": "proved",
   "theorems": [
    "C222_converter",
    "C222_converter_exact"
   ],
   "note": "Example C222_example. The LCh targets give a null pointer (C29)."
  },
  {
   "property": "C223",
   "status": "proved",
   "theorems": [
    "C223_stores"
   ],
   "note": "Example C223_example. LCh colours: undefined behaviour (C83)."
  },
  {
   "property": "C224",
   "status": "proved",
   "theorems": [
    "C224_modes",
    "C224_operators"
   ],
   "note": "Example C224_example. Dissolve reads the alphas before the conversion (C148) and is excluded in the statement. For LCh sources both sides give a null pointer (C92)."
  },
  {
   "property": "C225",
   "status": "proved",
   "theorems": [
    "C225_through",
    "C225_through_exact"
   ],
   "note": "Example C225_example. Full Bradford and full CMCCAT97 are excluded in the statement: grey colours show that they do not go through XYZ (undefined in C71_grey_refuted, while the XYZ conversion of a grey colour is adapted by C71_bradford_partial)."
  },
  {
   "property": "C226",
   "status": "proved",
   "theorems": [
    "C226_hcy",
    "C226_adjustments",
    "C226_adjustments_exact"
   ],
   "note": "Example C226_example. For LCh colours both sides give a null pointer (C83, C92)."
  },
  {
   "property": "C227",
   "status": "proved",
   "theorems": [
    "C227_distances",
    "C227_distances_exact"
   ],
   "note": "Example C226_example. The same object gives 0 without a conversion (C103)."
  },
  {
   "property": "C228",
   "status": "proved",
   "theorems": [
    "C228_steps"
   ],
   "note": "Example C228_example. The HSL components of the predecessor are those of its conversion, so for 8-bit types they include the rounding of the step before."
  },
  {
   "property": "C229",
   "status": "proved",
   "theorems": [
    "C229_hues",
    "C229_hsl"
   ],
   "note": "Example C229_example with C228_example. Found missing by a wrong program: a split around the base colour instead of its complement satisfies C100."
  },
  {
   "property": "C230",
   "status": "partial",
   "theorems": [
    "C230_twice_refuted",
    "C230_twice_partial"
   ],
   "note": "REFUTED for every HSL colour of hue between 179 and 180 (the hue comes back as 179, because hues are limited to 359). Proved for all other hues."
  },
  {
   "property": "C231",
   "status": "proved",
   "theorems": [
    "C231_distinct",
    "C231_hues"
   ],
   "note": "Example C231_example."
  },
  {
   "property": "C232",
   "status": "proved",
   "theorems": [
    "C232_setters",
    "C232_setters_exact",
    "C232_gamma"
   ],
   "note": "Example C232_example."
  },
  {
   "property": "C233",
   "status": "partial",
   "theorems": [
    "C233_hue_refuted",
    "C233_hue_partial"
   ],
   "note": "REFUTED for all pairs of hues that differ by more than 180 as numbers: the average is opposite to the middle of the shorter arc, more than 90 degrees away from both. Proved for all other pairs. Example C233_example."
  },
  {
   "property": "C234",
   "status": "partial",
   "theorems": [
    "C234_hue_refuted",
    "C234_cmyk_refuted",
    "C15_multiply_in_range"
   ],
   "note": "REFUTED for every colour with a hue other than 0 and alpha other than 1 (the hue is multiplied too) and for CMYK, where no RGB channel gets darker and a transparent colour becomes white. Example C234_example."
  },
  {
   "property": "C235",
   "status": "proved",
   "theorems": [
    "C235_exact",
    "C235_alpha",
    "C235_bytes",
    "C235_deep",
    "C235_deep_refuted"
   ],
   "note": "C235_deep_refuted is the counterexample the statement mentions. Examples C235_example, C235_bytes_example, C235_deep_example."
  },
  {
   "property": "C236",
   "status": "proved",
   "theorems": [
    "C236_regroup"
   ],
   "note": "Example C236_example shows two groups for which the results differ."
  },
  {
   "property": "C237",
   "status": "proved",
   "theorems": [
    "C237_exact",
    "C237_bytes"
   ],
   "note": "Examples C237_example, C237_bytes_example."
  }
 ]
}
