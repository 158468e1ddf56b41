{
 "p3": {"tightened": ["C35_from_list_source"], "note": "survived at first; rerun below"},
 "p4": {"tightened": ["C35_from_list_source"], "note": "survived at first; rerun below"},
 "h17": {"tightened": ["C33_adaptation"], "note": "survived at first; rerun below"},
 "d4": {"tightened": ["C66_equal_schemes_agree"], "note": "survived at first; rerun below"},
 "w7": {"tightened": ["C75_pixels_move_closer"], "note": "only an Example failed at first; rerun below"},
 "w8": {"tightened": ["C75_pixels_move_closer"], "note": "survived at first; rerun below"},
 "w9": {"tightened": ["C74_colours_are_cluster_means"], "note": "survived at first; rerun below"},
 "c18": {"note": "equivalent program: no observable difference"},
 "h19": {"note": "no claim is made about the hue of in_viewing_conditions"},
 "n1": {"tightened": ["C94_default_tones", "C94_palettes"], "note": "survived at first; rerun below"},
 "n2": {"tightened": ["C94_default_tones", "C94_palettes"], "note": "survived at first; rerun below"},
 "l6": {"tightened": ["C85_complement", "C85_complement_nearest"], "note": "survived at first; rerun below"},
 "l7": {"tightened": ["C85_complement", "C85_complement_nearest"], "note": "survived at first; rerun below"},
 "n55": {"tightened": ["C88_text_of_a_colour"]},
 "n56": {"tightened": ["C88_text_of_a_colour"]},
 "n43": {"tightened": ["C90_attributes_fit_together", "C90_jch_attributes"]},
 "n25": {"tightened": ["C92_analogous_steps"]},
 "n26": {"tightened": ["C92_analogous_steps"]},
 "n35": {"tightened": ["C93_greedy", "C93_two_colours"]},
 "n36": {"tightened": ["C93_fewer_colours_refuted", "C93_greedy", "C93_two_colours"]},
 "n37": {"tightened": ["C93_fewer_colours_refuted", "C93_greedy", "C93_two_colours"]},
 "n38": {"tightened": ["C93_greedy", "C93_two_colours"]},
 "n39": {"tightened": ["C93_greedy", "C93_two_colours"]},
 "n40": {"tightened": ["C93_greedy", "C93_two_colours"]},
 "o7": {"tightened": ["C95_zone"], "note": "survived at first; rerun below"},
 "n9": {"tightened": ["C94_names"], "note": "survived at first"},
 "n41": {"tightened": ["C75_squared_distance"], "note": "survived at first"}
}
