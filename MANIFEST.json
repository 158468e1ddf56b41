{
 "claims": [
  {
   "property": "C01",
   "status": "proved",
   "theorems": [
    "C01_pack_keeps_channels"
   ],
   "note": ""
  },
  {
   "property": "C02",
   "status": "proved",
   "theorems": [
    "C02_repack_identity_iff_opaque",
    "C02_accessors_are_bytes",
    "C02_accessors_read_their_bits",
    "C02_is_opaque_iff_alpha_bits"
   ],
   "note": ""
  },
  {
   "property": "C03",
   "status": "proved",
   "theorems": [
    "C03_hex_shape_and_lossy_round_trip"
   ],
   "note": ""
  },
  {
   "property": "C04",
   "status": "proved",
   "theorems": [
    "C04_hex_parser_is_exact"
   ],
   "note": ""
  },
  {
   "property": "C05",
   "status": "proved",
   "theorems": [
    "C05_sanitize_int",
    "C05_sanitize_int_no_overflow"
   ],
   "note": ""
  },
  {
   "property": "C06",
   "status": "proved",
   "theorems": [
    "C06_sanitize_double",
    "C06_sanitize_double_nonfinite",
    "C06_strict_bound_refuted"
   ],
   "note": "The half-open range is false: tiny negative angles give exactly 360. The exact behaviour is proved and the strict bound is refuted with a witness."
  },
  {
   "property": "C07",
   "status": "proved",
   "theorems": [
    "C07_difference_symmetric",
    "C07_difference_is_shorter_arc"
   ],
   "note": ""
  },
  {
   "property": "C08",
   "status": "proved",
   "theorems": [
    "C08_rotation_is_a_sign",
    "C08_rotation_follows_shorter_arc",
    "C08_rotation_any_angles"
   ],
   "note": ""
  },
  {
   "property": "C09",
   "status": "proved",
   "theorems": [
    "C09_clamp_int",
    "C09_clamp_double"
   ],
   "note": ""
  },
  {
   "property": "C10",
   "status": "proved",
   "theorems": [
    "C10_lerp_endpoints",
    "C10_lerp_between"
   ],
   "note": ""
  },
  {
   "property": "C11",
   "status": "proved",
   "theorems": [
    "C11_conversions_are_opaque",
    "C11_delinearized_is_a_byte"
   ],
   "note": ""
  },
  {
   "property": "C12",
   "status": "proved",
   "theorems": [
    "C12_linearize_round_trip"
   ],
   "note": ""
  },
  {
   "property": "C13",
   "status": "proved",
   "theorems": [
    "C13_xyz_round_trip"
   ],
   "note": ""
  },
  {
   "property": "C14",
   "status": "proved",
   "theorems": [
    "C14_lab_round_trip"
   ],
   "note": ""
  },
  {
   "property": "C15",
   "status": "proved",
   "theorems": [
    "C15_lstar_is_a_percentage",
    "C15_lstar_of_black",
    "C15_raising_channels_raises_lstar",
    "C15_lstar_is_exactly_a_percentage",
    "C15_tone_is_exactly_a_percentage"
   ],
   "note": "Range up to 1e-6 and monotone up to 1e-5 for any pow accurate to 1e-10; black is exact for any pow; the range is exact for a monotone pow exact at 1."
  },
  {
   "property": "C16",
   "status": "proved",
   "theorems": [
    "C16_lstar_gives_greys",
    "C16_nonpositive_lstar_is_black",
    "C16_lstar_from_100_is_white",
    "C16_greys_are_ordered"
   ],
   "note": ""
  },
  {
   "property": "C17",
   "status": "proved",
   "theorems": [
    "C17_greys_survive_lstar"
   ],
   "note": ""
  },
  {
   "property": "C18",
   "status": "proved",
   "theorems": [
    "C18_y_from_lstar_monotone",
    "C18_y_from_lstar_range",
    "C18_y_from_lstar_endpoints"
   ],
   "note": ""
  },
  {
   "property": "C19",
   "status": "proved",
   "theorems": [
    "C19_ratio_symmetric",
    "C19_ratio_bounds",
    "C19_ratio_of_equal_tones",
    "C19_ratio_clamps",
    "C19_black_on_white"
   ],
   "note": ""
  },
  {
   "property": "C20",
   "status": "proved",
   "theorems": [
    "C20_ratio_grows_with_distance"
   ],
   "note": ""
  },
  {
   "property": "C21",
   "status": "proved",
   "theorems": [
    "C21_any_libm",
    "C21_lighter_darker_range",
    "C21_tone_outside_fails"
   ],
   "note": ""
  },
  {
   "property": "C22",
   "status": "proved",
   "theorems": [
    "C22_lighter_reaches_the_ratio",
    "C22_darker_reaches_the_ratio"
   ],
   "note": ""
  },
  {
   "property": "C23",
   "status": "proved",
   "theorems": [
    "C23_lighter_unsafe",
    "C23_darker_unsafe"
   ],
   "note": ""
  },
  {
   "property": "C24",
   "status": "proved",
   "theorems": [
    "C24_foreground_tone"
   ],
   "note": ""
  },
  {
   "property": "C25",
   "status": "proved",
   "theorems": [
    "C25_enable_light_foreground",
    "C25_nan_tone_unchanged"
   ],
   "note": ""
  },
  {
   "property": "C26",
   "status": "proved",
   "theorems": [
    "C26_curve_control_points",
    "C26_curve_between"
   ],
   "note": ""
  },
  {
   "property": "C27",
   "status": "proved",
   "theorems": [
    "C27_hct_is_coherent"
   ],
   "note": ""
  },
  {
   "property": "C28",
   "status": "proved",
   "theorems": [
    "C28_from_int_keeps_its_integer",
    "C28_equality_is_by_integer",
    "C28_equality_is_an_equivalence_respected_by_hash",
    "C28_equal_hcts_agree_everywhere"
   ],
   "note": ""
  },
  {
   "property": "C29",
   "status": "proved",
   "theorems": [
    "C29_solver_returns_opaque"
   ],
   "note": ""
  },
  {
   "property": "C30",
   "status": "proved",
   "theorems": [
    "C30_degenerate_requests_solve_to_grey",
    "C30_hue_is_ignored"
   ],
   "note": ""
  },
  {
   "property": "C31",
   "status": "proved",
   "theorems": [
    "C31_solving_never_panics",
    "C31_from_is_from_int_of_an_opaque_colour",
    "C31_inaccurate_pow_refuted"
   ],
   "note": "For every pow whose relative error is at most 1e-12 on finite positive bases; no condition on sin, cos, atan2, exp, ln. Without an accuracy assumption the claim is refuted."
  },
  {
   "property": "C32",
   "status": "proved",
   "theorems": [
    "C32_every_colour_has_a_hue_in_range",
    "C32_returned_hue_in_range"
   ],
   "note": "For every libm accurate to 1e-13 (SpecCam.v) no integer panics; for any libm at all, a returned hue is in range."
  },
  {
   "property": "C33",
   "status": "proved",
   "theorems": [
    "C33_surround_check",
    "C33_short_white_point_panics",
    "C33_fields",
    "C33_adaptation"
   ],
   "note": ""
  },
  {
   "property": "C34",
   "status": "proved",
   "theorems": [
    "C34_list_round_trip",
    "C34_other_lengths_panic"
   ],
   "note": ""
  },
  {
   "property": "C35",
   "status": "proved",
   "theorems": [
    "C35_of",
    "C35_from_hct",
    "C35_from_list",
    "C35_from_list_source"
   ],
   "note": ""
  },
  {
   "property": "C36",
   "status": "proved",
   "theorems": [
    "C36_untouched",
    "C36_after_get",
    "C36_other_tones_unaffected"
   ],
   "note": ""
  },
  {
   "property": "C37",
   "status": "proved",
   "theorems": [
    "C37_symmetric",
    "C37_reflexive_unless_nan",
    "C37_meaning",
    "C37_not_transitive_and_hash_disagrees"
   ],
   "note": ""
  },
  {
   "property": "C38",
   "status": "proved",
   "theorems": [
    "C38_key_color"
   ],
   "note": ""
  },
  {
   "property": "C39",
   "status": "proved",
   "theorems": [
    "C39_core_list_round_trip",
    "C39_other_lengths_panic",
    "C39_as_list_has_65_entries"
   ],
   "note": ""
  },
  {
   "property": "C40",
   "status": "proved",
   "theorems": [
    "C40_of",
    "C40_content_of"
   ],
   "note": ""
  },
  {
   "property": "C41",
   "status": "proved",
   "theorems": [
    "C41_light_and_dark",
    "C41_content",
    "C41_any_palette_history"
   ],
   "note": ""
  },
  {
   "property": "C42",
   "status": "proved",
   "theorems": [
    "C42_score_range",
    "C42_score_returns",
    "C42_no_candidate"
   ],
   "note": ""
  },
  {
   "property": "C43",
   "status": "proved",
   "theorems": [
    "C43_distinct_hues"
   ],
   "note": ""
  },
  {
   "property": "C44",
   "status": "proved",
   "theorems": [
    "C44_ranked"
   ],
   "note": ""
  },
  {
   "property": "C45",
   "status": "proved",
   "theorems": [
    "C45_order_irrelevant",
    "C45_ties_refuted"
   ],
   "note": ""
  },
  {
   "property": "C46",
   "status": "proved",
   "theorems": [
    "C46_analogous_panics",
    "C46_complement_panics",
    "C46_analogous_returns",
    "C46_complement"
   ],
   "note": ""
  },
  {
   "property": "C47",
   "status": "proved",
   "theorems": [
    "C47_analogous_shape"
   ],
   "note": ""
  },
  {
   "property": "C48",
   "status": "proved",
   "theorems": [
    "C48_sorted",
    "C48_relative",
    "C48_input"
   ],
   "note": ""
  },
  {
   "property": "C49",
   "status": "proved",
   "theorems": [
    "C49_caches_transparent"
   ],
   "note": ""
  },
  {
   "property": "C50",
   "status": "proved",
   "theorems": [
    "C50_is_between"
   ],
   "note": ""
  },
  {
   "property": "C51",
   "status": "proved",
   "theorems": [
    "C51_map_counts",
    "C51_order_irrelevant"
   ],
   "note": ""
  },
  {
   "property": "C52",
   "status": "proved",
   "theorems": [
    "C52_index",
    "C52_injective"
   ],
   "note": ""
  },
  {
   "property": "C53",
   "status": "proved",
   "theorems": [
    "C53_prefix_sums",
    "C53_no_overflow"
   ],
   "note": ""
  },
  {
   "property": "C54",
   "status": "proved",
   "theorems": [
    "C54_boxes_partition"
   ],
   "note": ""
  },
  {
   "property": "C55",
   "status": "proved",
   "theorems": [
    "C55_wu_result",
    "C55_wu_total",
    "C55_nonpositive"
   ],
   "note": ""
  },
  {
   "property": "C56",
   "status": "proved",
   "theorems": [
    "C56_small_images",
    "C56_overflow"
   ],
   "note": ""
  },
  {
   "property": "C57",
   "status": "proved",
   "theorems": [
    "C57_populations",
    "C57_returns",
    "C57_exact_refuted"
   ],
   "note": ""
  },
  {
   "property": "C58",
   "status": "proved",
   "theorems": [
    "C58_pixel_map",
    "C58_no_map"
   ],
   "note": ""
  },
  {
   "property": "C59",
   "status": "proved",
   "theorems": [
    "C59_no_colors_panics",
    "C59_no_pixels",
    "C59_no_iterations",
    "C59_never_empty"
   ],
   "note": ""
  },
  {
   "property": "C60",
   "status": "proved",
   "theorems": [
    "C60_celebi",
    "C60_returns"
   ],
   "note": ""
  },
  {
   "property": "C61",
   "status": "partial",
   "theorems": [
    "C61_downward_search_ends",
    "C61_upward_search_finds_a_tone_partial",
    "C61_constructed_schemes",
    "C61_dark_schemes_partial",
    "C61_roles_resolve_partial",
    "C61_key_color_roles"
   ],
   "note": "Proved with no condition for every light scheme of any variant and every scheme, light or dark, of the seven variants with tabulated tones, built from any colour at any contrast level (C61_constructed_schemes). For dark Fidelity and Content schemes it is proved that the upward search can only end on a tone, and that all roles then resolve; missing is that this search always ends, which needs the solver's chroma error to be under 0.4."
  },
  {
   "property": "C62",
   "status": "proved",
   "theorems": [
    "C62_constructed_schemes",
    "C62_text_reaches_its_ratio",
    "C62_text_on_fixed_colors"
   ],
   "note": "Every text, icon and line role, at any contrast level. For Fidelity and Content under source_tones, which C62_constructed_schemes proves of every constructed scheme, dark ones as in C61; the roles on fixed colours are unconditional. Achievable means some tone reaches the ratio against all its backgrounds."
  },
  {
   "property": "C63",
   "status": "proved",
   "theorems": [
    "C63_accents_and_containers",
    "C63_fixed_and_dim"
   ],
   "note": "Distance up to 1e-12; Fidelity and Content accents under source_tones (see C62), fixed colours unconditional."
  },
  {
   "property": "C64",
   "status": "proved",
   "theorems": [
    "C64_backgrounds_avoid_the_zone",
    "C64_fixed_stays_on_one_side"
   ],
   "note": "All background roles, not only containers; also that fixed colours stay on one side of the zone."
  },
  {
   "property": "C65",
   "status": "proved",
   "theorems": [
    "C65_cache_bounded_and_sound"
   ],
   "note": ""
  },
  {
   "property": "C66",
   "status": "proved",
   "theorems": [
    "C66_reading_a_palette_keeps_equality",
    "C66_equal_schemes_agree",
    "C66_equal_schemes_share_the_cached_answer",
    "C66_equality_too_coarse"
   ],
   "note": ""
  },
  {
   "property": "C67",
   "status": "proved",
   "theorems": [
    "C67_band",
    "C67_breakpoints_unrotated",
    "C67_outside_every_band",
    "C67_single_and_mismatch"
   ],
   "note": ""
  },
  {
   "property": "C68",
   "status": "proved",
   "theorems": [
    "C68_documented_palettes",
    "C68_common_fields",
    "C68_content",
    "C68_fidelity"
   ],
   "note": ""
  },
  {
   "property": "C69",
   "status": "proved",
   "theorems": [
    "C69_monochrome_is_grey"
   ],
   "note": ""
  },
  {
   "property": "C70",
   "status": "proved",
   "theorems": [
    "C70_harmonized_hue",
    "C70_same_hue_unchanged",
    "C70_harmonize_keeps_chroma_and_tone"
   ],
   "note": ""
  },
  {
   "property": "C71",
   "status": "proved",
   "theorems": [
    "C71_amount_zero_keeps_coordinates",
    "C71_hct_hue_keeps_chroma_and_tone",
    "C71_results_are_opaque",
    "C71_amount_zero_is_the_first_colour",
    "C71_amount_one_is_the_second_colour",
    "C71_blending_with_itself"
   ],
   "note": ""
  },
  {
   "property": "C72",
   "status": "proved",
   "theorems": [
    "C72_disliked_iff",
    "C72_nan_is_liked",
    "C72_fix_if_disliked"
   ],
   "note": ""
  },
  {
   "property": "C73",
   "status": "proved",
   "theorems": [
    "C73_best_first_and_complete"
   ],
   "note": ""
  },
  {
   "property": "C74",
   "status": "proved",
   "theorems": [
    "C74_colours_are_cluster_means"
   ],
   "note": ""
  },
  {
   "property": "C75",
   "status": "proved",
   "theorems": [
    "C75_pixels_move_closer",
    "C75_squared_distance",
    "C75_nearest_colour_refuted"
   ],
   "note": ""
  },
  {
   "property": "C76",
   "status": "proved",
   "theorems": [
    "C76_cam16_round_trip"
   ],
   "note": ""
  },
  {
   "property": "C77",
   "status": "proved",
   "theorems": [
    "C77_hct",
    "C77_blend",
    "C77_tonal_palette",
    "C77_core_palette",
    "C77_score",
    "C77_schemes",
    "C77_roles",
    "C77_temperature"
   ],
   "note": ""
  },
  {
   "property": "C78",
   "status": "proved",
   "theorems": [
    "C78_from",
    "C78_palette_of",
    "C78_palette_from_hct"
   ],
   "note": "For every libm accurate to 1e-13 whose pow is monotone and keeps NaN and infinity (SpecTone.v). Chroma up to 10^9; larger requests are not covered."
  },
  {
   "property": "C79",
   "status": "proved",
   "theorems": [
    "C79_set_tone",
    "C79_set_hue_keeps_the_tone",
    "C79_set_chroma_keeps_the_tone",
    "C79_fix_if_disliked",
    "C79_harmonize_keeps_the_tone",
    "C79_hct_hue_keeps_the_tone"
   ],
   "note": ""
  },
  {
   "property": "C80",
   "status": "proved",
   "theorems": [
    "C80_requested_colours",
    "C80_palette_colours"
   ],
   "note": ""
  },
  {
   "property": "C81",
   "status": "proved",
   "theorems": [
    "C81_legacy_schemes_are_legible"
   ],
   "note": ""
  },
  {
   "property": "C82",
   "status": "proved",
   "theorems": [
    "C82_every_role_has_a_colour",
    "C82_light_text_contrast",
    "C82_roles_have_their_tone",
    "C82_text_contrast",
    "C82_text_on_fixed_contrast"
   ],
   "note": ""
  },
  {
   "property": "C83",
   "status": "proved",
   "theorems": [
    "C83_complement_keeps_the_tone",
    "C83_analogous_keep_the_tone"
   ],
   "note": ""
  },
  {
   "property": "C84",
   "status": "proved",
   "theorems": [
    "C84_range",
    "C84_documented_formula_refuted",
    "C84_sorted",
    "C84_relative"
   ],
   "note": ""
  },
  {
   "property": "C85",
   "status": "proved",
   "theorems": [
    "C85_complement",
    "C85_complement_nearest",
    "C85_ordinary"
   ],
   "note": ""
  },
  {
   "property": "C86",
   "status": "proved",
   "theorems": [
    "C86_ucs_round_trip",
    "C86_ucs_tolerance",
    "C86_jch_round_trip"
   ],
   "note": ""
  },
  {
   "property": "C87",
   "status": "proved",
   "theorems": [
    "C87_higher_tones_are_lighter",
    "C87_higher_tones_are_lighter_from_colours"
   ],
   "note": ""
  },
  {
   "property": "C88",
   "status": "proved",
   "theorems": [
    "C88_text_of_a_colour"
   ],
   "note": ""
  },
  {
   "property": "C89",
   "status": "proved",
   "theorems": [
    "C89_text_of_a_palette",
    "C89_text_of_a_colours_palette",
    "C89_equal_texts_equal_colours",
    "C89_equal_core_texts_equal_colours",
    "C89_text_of_a_listed_palette",
    "C89_listed_colours_refuted"
   ],
   "note": ""
  },
  {
   "property": "C90",
   "status": "proved",
   "theorems": [
    "C90_attributes_fit_together",
    "C90_jch_attributes"
   ],
   "note": ""
  },
  {
   "property": "C91",
   "status": "proved",
   "theorems": [
    "C91_distance_is_symmetric",
    "C91_distance_tells_colours_apart",
    "C91_distance_formula"
   ],
   "note": ""
  },
  {
   "property": "C92",
   "status": "proved",
   "theorems": [
    "C92_analogous_steps",
    "C92_the_rule_is_complete"
   ],
   "note": ""
  },
  {
   "property": "C93",
   "status": "proved",
   "theorems": [
    "C93_greedy",
    "C93_two_colours",
    "C93_fewer_colours_refuted"
   ],
   "note": ""
  },
  {
   "property": "C94",
   "status": "proved",
   "theorems": [
    "C94_default_tones",
    "C94_level_independent",
    "C94_surfaces",
    "C94_palettes",
    "C94_default_colours",
    "C94_every_role",
    "C94_names"
   ],
   "note": ""
  },
  {
   "property": "C95",
   "status": "proved",
   "theorems": [
    "C95_resolves",
    "C95_contrast",
    "C95_zone",
    "C95_pair",
    "C95_unnamed_pair_refuted",
    "C95_stay_together_refuted",
    "C95_large_difference_refuted",
    "C95_two_backgrounds",
    "C95_two_backgrounds_refuted",
    "C95_incomplete"
   ],
   "note": ""
  },
  {
   "property": "C96",
   "status": "proved",
   "theorems": [
    "C96_alone",
    "C96_flat_image",
    "C96_own_colours",
    "C96_any_order_refuted"
   ],
   "note": ""
  },
  {
   "property": "C97",
   "status": "proved",
   "theorems": [
    "C97_cam16_conditions",
    "C97_defaults",
    "C97_standard",
    "C97_standard_values"
   ],
   "note": ""
  },
  {
   "property": "C98",
   "status": "proved",
   "theorems": [
    "C98_cam16_attributes",
    "C98_screen_colours"
   ],
   "note": ""
  },
  {
   "property": "C99",
   "status": "proved",
   "theorems": [
    "C99_channel_curve",
    "C99_xyz",
    "C99_lab",
    "C99_lightness_of_colour",
    "C99_lightness_of_luminance",
    "C99_luminance_of_lightness",
    "C99_contrast",
    "C99_encoded_channel",
    "C99_grey_of_lightness",
    "C99_colour_of_stimulus"
   ],
   "note": ""
  },
  {
   "property": "C100",
   "status": "proved",
   "theorems": [
    "C100_temperature",
    "C100_every_colour"
   ],
   "note": ""
  },
  {
   "property": "C101",
   "status": "proved",
   "theorems": [
    "C101_colour_of_lab",
    "C101_way_back"
   ],
   "note": ""
  },
  {
   "property": "C102",
   "status": "proved",
   "theorems": [
    "C102_hue_and_chroma",
    "C102_search"
   ],
   "note": ""
  },
  {
   "property": "C103",
   "status": "proved",
   "theorems": [
    "C103_palette_of",
    "C103_palette_from_hct",
    "C103_setters",
    "C103_harmonize",
    "C103_hct_hue",
    "C103_roles",
    "C103_legacy_schemes"
   ],
   "note": ""
  },
  {
   "property": "C104",
   "status": "proved",
   "theorems": [
    "C104_pale",
    "C104_search",
    "C104_palette",
    "C104_neutral",
    "C104_neutral_variant",
    "C104_roles",
    "C104_setters",
    "C104_legacy_schemes"
   ],
   "note": ""
  }
 ]
}