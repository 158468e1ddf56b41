{"id": "C01", "title": "Packing RGB into ARGB keeps each channel", "statement": "For all i64 red, green, blue, ColorUtils::argb_from_rgb returns a value in 0xFF000000..=0xFFFFFFFF whose red/green/blue accessors return the arguments modulo 256 and whose alpha is 255.", "quantifier": "every triple of i64", "why_tests_cant": "2^192 inputs, including negative and oversized channels", "anchors": ["src/utils/color_utils.rs:argb_from_rgb", "src/utils/color_utils.rs:red_from_argb"]}
{"id": "C02", "title": "Unpack then repack is the identity exactly on opaque 32-bit colours", "statement": "For every i64 argb, repacking its red, green and blue accessors gives back argb if and only if 0xFF000000 <= argb <= 0xFFFFFFFF; otherwise the result is argb's low 24 bits made opaque. Every accessor returns a value in 0..=255, and is_opaque is true exactly when bits 24..31 are all set.", "quantifier": "every i64", "why_tests_cant": "2^64 inputs, negative ones included", "anchors": ["src/utils/color_utils.rs:alpha_from_argb", "src/utils/color_utils.rs:is_opaque"]}
{"id": "C03", "title": "Hex formatting has a fixed shape and loses exactly the alpha", "statement": "For every i64 argb, hex_from_argb yields an optional '#' followed by exactly six characters from 0-9A-F, and argb_from_hex of that string is Some(argb's low 24 bits): the documented inverse pair does NOT round-trip any opaque colour.", "quantifier": "every i64 and both flag values", "why_tests_cant": "every colour has to format to exactly two digits per channel", "anchors": ["src/utils/string_utils.rs:hex_from_argb", "src/utils/string_utils.rs:argb_from_hex"]}
{"id": "C04", "title": "argb_from_hex accepts exactly the hex numerals that fit in i64", "statement": "argb_from_hex(s) removes every leading '#', then accepts an optional single sign followed by one or more hex digits of either case whose value lies in the i64 range, returning that value; every other string gives None. It never panics.", "quantifier": "every string", "why_tests_cant": "infinitely many strings: signs, repeated '#', overflow boundaries", "anchors": ["src/utils/string_utils.rs:argb_from_hex"]}
{"id": "C05", "title": "Integer degree sanitising", "statement": "For every i64 d, sanitize_degrees_int(d) lies in [0,360) and is congruent to d modulo 360, without overflow.", "quantifier": "every i64", "why_tests_cant": "2^64 inputs incl. i64::MIN", "anchors": ["src/utils/math_utils.rs:sanitize_degrees_int"]}
{"id": "C06", "title": "Floating degree sanitising", "statement": "For every finite f64 d, sanitize_degrees_double(d) is finite and in [0,360]; it differs from d by an exact multiple of 360 whenever d >= 0, and by at most half an ulp of 360 from one otherwise. The documented bound < 360 is violated: some negative d return exactly 360. NaN and infinities return NaN.", "quantifier": "every f64", "why_tests_cant": "rounding only misbehaves for a thin set of tiny negative inputs", "anchors": ["src/utils/math_utils.rs:sanitize_degrees_double"]}
{"id": "C07", "title": "Circular distance", "statement": "difference_degrees(a,b) = difference_degrees(b,a) for all f64; for a,b in [0,360] it lies in [0,180], is 0 when a=b, and is within rounding of the shorter arc.", "quantifier": "every pair of f64", "why_tests_cant": "continuous domain with a branch at 180", "anchors": ["src/utils/math_utils.rs:difference_degrees"]}
{"id": "C08", "title": "Rotation direction points along the shorter arc", "statement": "rotation_direction returns exactly 1.0 or -1.0 for all f64 pairs with a finite difference; it is 1.0 exactly when the sanitised difference is at most 180.", "quantifier": "every pair of f64", "why_tests_cant": "continuous domain", "anchors": ["src/utils/math_utils.rs:rotation_direction"]}
{"id": "C09", "title": "Clamping", "statement": "clamp_int and clamp_double return a value between the bounds whenever min<=max and the input is not NaN, return the input when it is already between them, and are idempotent.", "quantifier": "all i64 / f64 triples", "why_tests_cant": "NaN and infinite inputs, inverted bounds", "anchors": ["src/utils/math_utils.rs:clamp_int", "src/utils/math_utils.rs:clamp_double"]}
{"id": "C10", "title": "Interpolation hits its endpoints", "statement": "For finite start and stop, lerp(start,stop,0)=start and lerp(start,stop,1)=stop (as numbers), and for amount in [0,1] and 0<=start<=stop the result never leaves the interval by more than rounding.", "quantifier": "all finite f64", "why_tests_cant": "floating point rounding", "anchors": ["src/utils/math_utils.rs:lerp"]}
{"id": "C11", "title": "Every conversion into ARGB yields an opaque 32-bit colour", "statement": "argb_from_linrgb, argb_from_xyz, argb_from_lab and argb_from_lstar return a value in 0xFF000000..=0xFFFFFFFF for all f64 arguments, NaN, infinities and out-of-gamut values included, whatever the platform's pow returns; delinearized always returns 0..=255.", "quantifier": "all f64 (2^64 per coordinate) and every libm", "why_tests_cant": "NaN/inf casts; libm differences between platforms", "anchors": ["src/utils/color_utils.rs:delinearized", "src/utils/color_utils.rs:argb_from_lab"]}
{"id": "C12", "title": "Linearise/delinearise is the identity on the 256 channel values", "statement": "For every channel value c in 0..=255 and every libm whose pow is accurate to 1e-5 relative error, delinearized(linearized(c)) = c.", "quantifier": "all channel values and all sufficiently accurate pow implementations", "why_tests_cant": "tests exercise one libm", "anchors": ["src/utils/color_utils.rs:linearized", "src/utils/color_utils.rs:delinearized"]}
{"id": "C13", "title": "ARGB -> XYZ -> ARGB is the identity on colours", "statement": "For every opaque colour, argb_from_xyz applied to xyz_from_argb returns the colour, for every pow accurate to 1e-5 relative error.", "quantifier": "all 2^24 colours and all accurate libms", "why_tests_cant": "2^24 colours times libm implementations", "anchors": ["src/utils/color_utils.rs:xyz_from_argb", "src/utils/color_utils.rs:argb_from_xyz"]}
{"id": "C14", "title": "ARGB -> Lab -> ARGB is the identity on colours", "statement": "For every opaque colour, argb_from_lab applied to lab_from_argb returns the colour, for every pow accurate to 1e-10 relative error.", "quantifier": "all 2^24 colours and all accurate libms", "why_tests_cant": "2^24 colours times libm implementations", "anchors": ["src/utils/color_utils.rs:lab_from_argb", "src/utils/color_utils.rs:argb_from_lab"]}
{"id": "C15", "title": "L* of a colour is a percentage and is monotone in luminance", "statement": "For every pow accurate to 1e-10, lstar_from_argb of every i64 is finite and lies in [0, 100] up to 1e-6, it is exactly 0 for black, and raising any channel never lowers it by more than 1e-5. If pow is moreover monotone and exact at 1, L* lies in [0, 100] exactly.", "quantifier": "all i64", "why_tests_cant": "2^24 colours", "anchors": ["src/utils/color_utils.rs:lstar_from_argb"]}
{"id": "C16", "title": "argb_from_lstar yields greys with the right extremes", "statement": "For every f64 lstar (NaN included) the result is an opaque grey (equal channels), lstar<=0 gives black and lstar>=100 gives white, and larger lstar never gives a darker grey.", "quantifier": "all f64", "why_tests_cant": "continuous domain", "anchors": ["src/utils/color_utils.rs:argb_from_lstar", "src/utils/color_utils.rs:y_from_lstar"]}
{"id": "C17", "title": "Greys survive a trip through L*", "statement": "For each of the 256 greys, argb_from_lstar(lstar_from_argb(grey)) = grey for every accurate pow.", "quantifier": "all greys, all accurate libms", "why_tests_cant": "libm variation", "anchors": ["src/utils/color_utils.rs:argb_from_lstar", "src/utils/color_utils.rs:lstar_from_argb"]}
{"id": "C18", "title": "y_from_lstar is monotone and maps [0,100] into [0,100]", "statement": "For all f64 a<=b (finite), y_from_lstar(a)<=y_from_lstar(b); y_from_lstar(0)=0 and y_from_lstar(100)=100 exactly; inputs in [0,100] give outputs in [0,100].", "quantifier": "all finite f64 pairs", "why_tests_cant": "monotonicity across the piecewise boundary is a statement about every pair of floats", "anchors": ["src/utils/color_utils.rs:y_from_lstar", "src/utils/color_utils.rs:_lab_invf"]}
{"id": "C19", "title": "Contrast ratio is symmetric, bounded and clamped", "statement": "For all f64 tones that are not NaN, ratio_of_tones(a,b)=ratio_of_tones(b,a), lies in [1,21], equals 1 when a=b, equals the value at the clamped tones, and ratio_of_tones(0,100)=21.", "quantifier": "all pairs of non-NaN f64", "why_tests_cant": "continuous domain; rounding could exceed 21 or drop below 1", "anchors": ["src/contrast/contrast.rs:ratio_of_tones"]}
{"id": "C20", "title": "Contrast ratio grows with distance", "statement": "For tones a<=b<=c in [0,100], ratio_of_tones(a,b)<=ratio_of_tones(a,c) and ratio_of_tones(b,c)<=ratio_of_tones(a,c).", "quantifier": "all triples of f64", "why_tests_cant": "monotonicity of a rounded computation", "anchors": ["src/contrast/contrast.rs:ratio_of_tones"]}
{"id": "C21", "title": "Contrast::lighter and darker return -1 or a tone", "statement": "For every non-NaN tone and ratio, lighter and darker return either exactly -1 or a value in [0,100] (never NaN for tones in range and finite ratios under an accurate pow); any tone outside [0,100] gives -1.", "quantifier": "all f64 pairs, all libms", "why_tests_cant": "continuous domain", "anchors": ["src/contrast/contrast.rs:lighter", "src/contrast/contrast.rs:darker"]}
{"id": "C22", "title": "Contrast::lighter and darker deliver the requested ratio", "statement": "For every tone in [0,100] and ratio in [1,21], if lighter(tone,ratio) is not -1 then it is >= tone and ratio_of_tones(result,tone) >= ratio; likewise darker gives a tone <= tone reaching the ratio.", "quantifier": "all f64 tones and ratios in range, every accurate pow", "why_tests_cant": "this is the accessibility guarantee; tests sample a few tones", "anchors": ["src/contrast/contrast.rs:lighter", "src/contrast/contrast.rs:darker"]}
{"id": "C23", "title": "The unsafe variants always return a usable tone", "statement": "lighter_unsafe and darker_unsafe return a value in [0,100] for every non-NaN result of the safe variant; they return 100 and 0 respectively exactly when the safe variant fails, and agree with it otherwise.", "quantifier": "all f64", "why_tests_cant": "continuous domain", "anchors": ["src/contrast/contrast.rs:lighter_unsafe", "src/contrast/contrast.rs:darker_unsafe"]}
{"id": "C24", "title": "foreground_tone meets the ratio whenever either direction can", "statement": "For every background tone in [0,100] and ratio in [1,21], foreground_tone returns a tone in [0,100]; if lighter or darker can achieve the ratio, so does the returned tone; and it is always one of the two candidates.", "quantifier": "all f64 in range, every accurate pow", "why_tests_cant": "continuous domain with several branches", "anchors": ["src/dynamiccolor/dynamic_color.rs:foreground_tone"]}
{"id": "C25", "title": "enable_light_foreground produces tones that allow white text", "statement": "For every tone, enable_light_foreground returns 49 or the tone unchanged; the result never lies in the band that prefers but does not allow a light foreground.", "quantifier": "all f64", "why_tests_cant": "rounding boundaries 49.5 / 59.5", "anchors": ["src/dynamiccolor/dynamic_color.rs:enable_light_foreground"]}
{"id": "C26", "title": "Contrast curves interpolate their four control points", "statement": "ContrastCurve::get returns low at or below -1, normal at 0, medium at 0.5, high at or above 1 exactly, and for contrast levels in between stays within the neighbouring control values for the curves used by the material roles.", "quantifier": "all contrast levels", "why_tests_cant": "continuous domain", "anchors": ["src/dynamiccolor/src/contrast_curve.rs:get"]}
{"id": "C27", "title": "An Hct is always coherent with its ARGB", "statement": "After any sequence of set_hue, set_chroma and set_tone calls with any f64 arguments, the reported hue, chroma and tone are exactly those of Hct::from_int(to_int()), and to_int is an opaque colour after at least one setter.", "quantifier": "all histories of setter calls", "why_tests_cant": "arbitrary call histories", "anchors": ["src/hct/hct.rs:set_hue", "src/hct/hct.rs:set_chroma", "src/hct/hct.rs:set_tone"]}
{"id": "C28", "title": "Hct::from_int keeps its integer and equality agrees with hashing", "statement": "Hct::from_int(x).to_int()=x for every i64 x; two Hct are equal iff their integers are equal and then they hash equally.", "quantifier": "every i64", "why_tests_cant": "2^64 inputs", "anchors": ["src/hct/hct.rs:new", "src/hct/hct.rs:eq"]}
{"id": "C29", "title": "The solver only returns opaque colours", "statement": "HctSolver::solve_to_int, for every f64 hue, chroma and tone (NaN and infinities included) and every libm, if it returns, returns a value in 0xFF000000..=0xFFFFFFFF.", "quantifier": "all f64 triples, all libms", "why_tests_cant": "2^192 inputs", "anchors": ["src/hct/src/hct_solver.rs:solve_to_int"]}
{"id": "C30", "title": "Degenerate HCT requests give the grey of that tone", "statement": "If chroma<0.0001 or tone<0.0001 or tone>99.9999, Hct::from never panics and yields the grey of that tone regardless of hue; tone<=0 gives black, tone>=100 white.", "quantifier": "all f64 triples satisfying the guard", "why_tests_cant": "continuous domain", "anchors": ["src/hct/src/hct_solver.rs:solve_to_int", "src/hct/hct.rs:from"]}
{"id": "C31", "title": "Solving does not panic", "statement": "HctSolver::solve_to_int never panics (no out-of-bounds table index) for any f64 hue, chroma, tone.", "quantifier": "all f64 triples, every accurate libm", "why_tests_cant": "the table index depends on rounding in a geometric bisection", "anchors": ["src/hct/src/hct_solver.rs:_bisect_to_limit", "src/hct/src/hct_solver.rs:_critical_planes"]}
{"id": "C32", "title": "Every colour has a hue in [0,360)", "statement": "For every i64, Hct::from_int does not panic and the hue is in [0,360).", "quantifier": "all i64, every accurate libm", "why_tests_cant": "an internal assertion fails for angles rounding to 360", "anchors": ["src/hct/cam16.rs:from_xyz_in_viewing_conditions"]}
{"id": "C33", "title": "Viewing conditions reject exactly out-of-range surrounds", "statement": "ViewingConditions::make panics iff surround is NaN or outside [0,2] (given a 3-element white point), clamps the background to at least 0.1, replaces non-positive luminance by the default, and yields c in [0.525,0.69] and n_c in [0.8,1].", "quantifier": "all f64 arguments", "why_tests_cant": "continuous domain, NaN", "anchors": ["src/hct/viewing_conditions.rs:make"]}
{"id": "C34", "title": "TonalPalette list round trip", "statement": "For every list of 13 i64, TonalPalette::from_list(l).get_as_list() = l (if from_list returns); every other length panics.", "quantifier": "all lists of i64", "why_tests_cant": "all lists", "anchors": ["src/palettes/tonal_palette.rs:from_list", "src/palettes/tonal_palette.rs:get_as_list"]}
{"id": "C35", "title": "TonalPalette::get is independent of the call history", "statement": "For any sequence of get calls, each get(t) on a palette built by of/from_hct returns Hct::from(hue,chroma,t).to_int(), and on one built by from_list returns the supplied colour for the 13 common tones and the generated one otherwise.", "quantifier": "all call histories", "why_tests_cant": "cache interaction over arbitrary histories", "anchors": ["src/palettes/tonal_palette.rs:get"]}
{"id": "C36", "title": "TonalPalette::get_hct depends on history for fractional tones", "statement": "On a palette with an untouched cache get_hct(t) is Hct::from(hue,chroma,t) for every t; after get(k), every fractional tone with integer part k is answered by the cached integer-tone colour instead: the same call on the same palette can return different colours before and after an unrelated get.", "quantifier": "all f64 tones, all histories", "why_tests_cant": "needs a specific interleaving of two methods", "anchors": ["src/palettes/tonal_palette.rs:get_hct"]}
{"id": "C37", "title": "TonalPalette equality is reflexive and symmetric but not transitive, and disagrees with Hash", "statement": "Equality is symmetric for all palettes and reflexive unless hue or chroma is NaN; there are three palettes a==b, b==c, a!=c; and two equal palettes with different hash input.", "quantifier": "all palettes", "why_tests_cant": "relational property over triples", "anchors": ["src/palettes/tonal_palette.rs:eq", "src/palettes/tonal_palette.rs:hash"]}
{"id": "C38", "title": "The key colour is the closest visited tone", "statement": "create_key_color(hue,chroma) returns a colour among the tones 1..99 at that hue/chroma, and either its rounded chroma equals the rounded request or its chroma error is minimal over all those tones.", "quantifier": "all f64 hue/chroma", "why_tests_cant": "search over a loop with early exit", "anchors": ["src/palettes/tonal_palette.rs:create_key_color"]}
{"id": "C39", "title": "CorePalette list round trip", "statement": "For every list of 65 i64, CorePalette::from_list(l).as_list() = l (if it returns); every other length panics; as_list always has 65 entries.", "quantifier": "all lists", "why_tests_cant": "all lists", "anchors": ["src/palettes/core_palette.rs:from_list", "src/palettes/core_palette.rs:as_list"]}
{"id": "C40", "title": "CorePalette::of uses the documented hues and chromas", "statement": "For every source colour, primary has the source hue and chroma max(48,c), secondary 16, tertiary hue+60 chroma 24, neutral 4, neutral variant 8, error 25/84; content_of uses c, c/3, c/2, min(c/12,4), min(c/6,8).", "quantifier": "all i64 colours", "why_tests_cant": "all colours", "anchors": ["src/palettes/core_palette.rs:of", "src/palettes/core_palette.rs:content_of"]}
{"id": "C41", "title": "Legacy schemes read the documented tones", "statement": "Scheme::light/dark fields equal the colour of the documented palette at the documented tone for every source colour, independent of evaluation order.", "quantifier": "all i64 colours", "why_tests_cant": "29 fields times all colours", "anchors": ["src/scheme/scheme.rs:light_from_core_palette"]}
{"id": "C42", "title": "Score returns between 1 and max(desired,1) colours, all from the input or the fallback", "statement": "For every population map, desired count, fallback and filter flag, a returned list is non-empty, has length at most max(1,desired), and either is exactly [fallback] or contains only input colours without repetition.", "quantifier": "all maps, all iteration orders", "why_tests_cant": "arbitrary maps and hash iteration orders", "anchors": ["src/score/score.rs:score"]}
{"id": "C43", "title": "Score's colours have distinct hues", "statement": "Any two colours returned by Score::score differ in hue by at least 15 degrees.", "quantifier": "all maps and orders", "why_tests_cant": "pairwise property of a greedy search", "anchors": ["src/score/score.rs:score"]}
{"id": "C44", "title": "Score ranks by score and drops weak colours", "statement": "Returned colours are in non-increasing score order and, with filtering on, each has chroma >= 5 and excited proportion > 1%.", "quantifier": "all maps and orders", "why_tests_cant": "depends on sort semantics", "anchors": ["src/score/score.rs:score"]}
{"id": "C45", "title": "Score is deterministic only when scores are distinct", "statement": "If all scores are pairwise distinct the result does not depend on hash-map iteration order; with ties it can.", "quantifier": "all maps and all pairs of iteration orders", "why_tests_cant": "hash iteration order is randomised per process", "anchors": ["src/score/score.rs:score"]}
{"id": "C46", "title": "The temperature wheel cannot be indexed at hue 360", "statement": "analogous and get_complement on an input whose hue is >= 359.5 panic with an index out of bounds (the wheel has 360 entries while the rounded hue is 360); for hues below 359.5 the first lookup is in bounds.", "quantifier": "all inputs", "why_tests_cant": "needs a source colour in a half-degree band", "anchors": ["src/temperature/temperature_cache.rs:analogous", "src/temperature/temperature_cache.rs:get_complement"]}
{"id": "C47", "title": "analogous returns exactly the requested number of colours with the input in place", "statement": "When analogous(count,divisions) returns, the result has max(1,count) colours and the input sits at index floor((count-1)/2); the loop always terminates.", "quantifier": "all inputs, counts and divisions", "why_tests_cant": "nested loops with float conditions", "anchors": ["src/temperature/temperature_cache.rs:analogous"]}
{"id": "C48", "title": "Temperatures are sorted and relative temperatures are percentages", "statement": "The by-temperature list is sorted by temperature with the coldest first and contains the 360 wheel colours and the input; relative temperature of any of these is in [0,1], 0 for the coldest and 1 for the warmest unless all are equal (then 0.5).", "quantifier": "all inputs whose temperatures are not NaN", "why_tests_cant": "361-element invariant", "anchors": ["src/temperature/temperature_cache.rs:relative_temperature", "src/temperature/temperature_cache.rs:get_hcts_by_temp"]}
{"id": "C49", "title": "Temperature caches are transparent", "statement": "Any sequence of accessor calls on a TemperatureCache returns the same values as on a fresh cache.", "quantifier": "all call histories", "why_tests_cant": "lazily filled caches", "anchors": ["src/temperature/temperature_cache.rs:get_temps_by_hct"]}
{"id": "C50", "title": "is_between is membership in the clockwise arc", "statement": "For angles in [0,360), is_between(x,a,b) holds iff rotating clockwise from a reaches x no later than b (a<b) or x is outside the open arc (b,a) otherwise.", "quantifier": "all triples of angles", "why_tests_cant": "continuous domain", "anchors": ["src/temperature/temperature_cache.rs:is_between"]}
{"id": "C51", "title": "QuantizerMap counts opaque pixels exactly", "statement": "For every pixel list, the map contains exactly the pixels with alpha 255, each with its number of occurrences; the counts sum to the number of opaque pixels; the result does not depend on pixel order.", "quantifier": "all pixel lists", "why_tests_cant": "unbounded lists", "anchors": ["src/quantize/quantizer_map.rs:quantize"]}
{"id": "C52", "title": "Wu indices are in bounds and injective", "statement": "For 0<=r,g,b<=32 the histogram index is 1089r+33g+b, lies in [0,35937) and distinct triples have distinct indices.", "quantifier": "all triples", "why_tests_cant": "index arithmetic by shifts", "anchors": ["src/quantize/quantizer_wu.rs:get_index"]}
{"id": "C53", "title": "Wu's moments are exact 3-D prefix sums", "statement": "After construct_histogram and compute_moments, every cell of every integer moment table equals the sum over all pixels dominated by that cell, for every pixel population without overflow; therefore the weight of a box is the number of pixels inside it.", "quantifier": "all pixel maps, all cells", "why_tests_cant": "triple nested in-place loop", "anchors": ["src/quantize/quantizer_wu.rs:compute_moments", "src/quantize/quantizer_wu.rs:volume"]}
{"id": "C54", "title": "Wu boxes stay disjoint and cover the histogram", "statement": "After create_boxes, the boxes in use are pairwise disjoint, lie within the cube, and together contain every pixel exactly once.", "quantifier": "all populations and colour counts", "why_tests_cant": "iterated cutting", "anchors": ["src/quantize/quantizer_wu.rs:create_boxes", "src/quantize/quantizer_wu.rs:cut"]}
{"id": "C55", "title": "Wu returns at most max_colors opaque colours", "statement": "For every pixel list and max_colors>=1, quantize returns at most max_colors colours, each opaque with channels between the smallest and largest channel of the pixels in its box; max_colors<=0 panics.", "quantifier": "all pixel lists", "why_tests_cant": "iterated cutting, integer division", "anchors": ["src/quantize/quantizer_wu.rs:quantize", "src/quantize/quantizer_wu.rs:create_result"]}
{"id": "C56", "title": "Wu overflows on large uniform images", "statement": "For pixel populations whose squared channel sums exceed i64 the variance computation overflows (panics in debug builds): e.g. about 7 million white pixels.", "quantifier": "all populations", "why_tests_cant": "needs a multi-megapixel image", "anchors": ["src/quantize/quantizer_wu.rs:variance"]}
{"id": "C57", "title": "Wsmeans populations add up to at most the number of input pixels", "statement": "For all inputs, when quantize returns, there are at most min(max_colors, distinct pixels) colours, each opaque with a positive count, and counts total at most the number of pixels (exactly, unless two clusters round to the same colour).", "quantifier": "all pixel lists, starting clusters, RNG streams, iteration counts", "why_tests_cant": "k-means iteration over arbitrary data", "anchors": ["src/quantize/quantizer_wsmeans.rs:quantize"]}
{"id": "C58", "title": "Wsmeans maps every input pixel to an output colour", "statement": "With return_input_pixel_to_cluster_pixel the mapping's keys are exactly the distinct input pixels, and every value is one of the returned colours when at least one full iteration ran.", "quantifier": "all inputs", "why_tests_cant": "k-means iteration", "anchors": ["src/quantize/quantizer_wsmeans.rs:quantize"]}
{"id": "C59", "title": "Wsmeans degenerate arguments", "statement": "max_colors=0 with at least one pixel panics (remainder by zero); an empty pixel list returns an empty result; max_iterations=0 returns an empty colour map.", "quantifier": "all inputs of that shape", "why_tests_cant": "edge cases over all remaining arguments", "anchors": ["src/quantize/quantizer_wsmeans.rs:quantize"]}
{"id": "C60", "title": "Celebi composes Wu and Wsmeans", "statement": "QuantizerCelebi returns at most max_colors colours with positive counts totalling at most the number of pixels.", "quantifier": "all pixel lists", "why_tests_cant": "composition of two iterative algorithms", "anchors": ["src/quantize/quantizer_celebi.rs:quantize"]}
{"id": "C61", "title": "Material roles always resolve to a tone in [0,100]", "statement": "For every scheme (any variant, dark flag, contrast level including out of range and NaN-free palettes), get_tone of each of the material roles returns without panicking on a missing background or curve, and lies in [0,100]; in particular the search for a tone at which a chroma exists, made by the Fidelity and Content variants, ends on a tone.", "quantifier": "all schemes and all contrast levels", "why_tests_cant": "mutually recursive role definitions times a continuous contrast level", "anchors": ["src/dynamiccolor/dynamic_color.rs:get_tone", "src/dynamiccolor/material_dynamic_colors.rs:primary"]}
{"id": "C62", "title": "Text roles reach the requested contrast", "statement": "For every scheme and contrast level in [-1,1], each on-X role whose desired ratio is achievable against its background reaches it; when it cannot be reached, the contrast is still at least the smaller of the ratio asked for and 4.47.", "quantifier": "all schemes and contrast levels", "why_tests_cant": "accessibility guarantee over a continuum", "anchors": ["src/dynamiccolor/dynamic_color.rs:get_tone"]}
{"id": "C63", "title": "Tone-delta pairs keep their distance", "statement": "For the container/accent and fixed/fixed-dim pairs the two resolved tones differ by at least 10 (up to rounding) in the documented direction, for every scheme and contrast level.", "quantifier": "all schemes and contrast levels", "why_tests_cant": "three-round adjustment plus awkward-zone repair", "anchors": ["src/dynamiccolor/dynamic_color.rs:get_tone"]}
{"id": "C64", "title": "Background roles avoid the awkward zone", "statement": "No container/accent role resolves to a tone in [50,60).", "quantifier": "all schemes and contrast levels", "why_tests_cant": "continuous", "anchors": ["src/dynamiccolor/dynamic_color.rs:get_tone"]}
{"id": "C65", "title": "A DynamicColor's cache is bounded and transparent for equal-by-value schemes", "statement": "Over any call history the cache holds at most 5 schemes and every get_hct answer equals the uncached answer for some scheme equal to the argument.", "quantifier": "all call histories", "why_tests_cant": "cache eviction over histories", "anchors": ["src/dynamiccolor/dynamic_color.rs:get_hct"]}
{"id": "C66", "title": "Scheme equality is too coarse for the cache", "statement": "Two schemes that compare equal (and hash equally) can resolve a role to different colours, so a cached DynamicColor can return a stale colour.", "quantifier": "existential over schemes", "why_tests_cant": "needs two particular equal schemes", "anchors": ["src/dynamiccolor/dynamic_color.rs:get_hct", "src/dynamiccolor/dynamic_scheme.rs:eq"]}
{"id": "C67", "title": "get_rotated_hue rotates by the band's rotation, except at breakpoints", "statement": "With equal-length lists it returns hue+rotation (sanitised) of the band strictly containing the hue, and leaves the hue unrotated at exact breakpoints; unequal lengths panic.", "quantifier": "all hues and lists", "why_tests_cant": "strict inequality edge", "anchors": ["src/dynamiccolor/dynamic_scheme.rs:get_rotated_hue"]}
{"id": "C68", "title": "Scheme constructors use the documented palettes", "statement": "For each of the nine variants and every source colour the five palettes have the documented hue offsets and chromas, and the error palette is always 25/84.", "quantifier": "all sources, dark flags and contrast levels", "why_tests_cant": "all colours", "anchors": ["src/scheme/scheme_tonal_spot.rs", "src/scheme/scheme_vibrant.rs"]}
{"id": "C69", "title": "Monochrome schemes are grey", "statement": "For every source, dark flag and contrast level, every non-error role of a monochrome scheme resolves to a grey.", "quantifier": "all sources and contrast levels", "why_tests_cant": "all colours times a continuum", "anchors": ["src/scheme/scheme_monochrome.rs"]}
{"id": "C70", "title": "harmonize rotates at most 15 degrees toward the source", "statement": "The hue passed to the solver differs from the design hue by at most 15 degrees and lies on the shorter arc toward the source hue; chroma and tone requested are the design colour's; identical hues are unchanged.", "quantifier": "all pairs of colours", "why_tests_cant": "all pairs", "anchors": ["src/blend/blend.rs:harmonize"]}
{"id": "C71", "title": "Blending endpoints", "statement": "cam16_ucs(from,to,0) is from, cam16_ucs(from,to,1) is to and cam16_ucs(c,c,t) is c, each made opaque; at 0 the CAM16-UCS coordinates used are exactly those of from; hct_hue keeps the requested chroma and tone of from; all results are opaque.", "quantifier": "all colours and amounts", "why_tests_cant": "all pairs times a continuum", "anchors": ["src/blend/blend.rs:cam16_ucs", "src/blend/blend.rs:hct_hue"]}
{"id": "C72", "title": "Dislike analysis", "statement": "is_disliked holds exactly for rounded hue in 90..=111, rounded chroma > 16 and rounded tone < 65; fix_if_disliked leaves liked colours untouched and otherwise asks for the same hue and chroma at tone 70.", "quantifier": "all colours", "why_tests_cant": "all colours", "anchors": ["src/dislike/dislike_analyzer.rs:is_disliked", "src/dislike/dislike_analyzer.rs:fix_if_disliked"]}
{"id": "C73", "title": "Score's first colour is the best candidate, and a short result is complete", "statement": "Whenever some input colour passes the filter, the first colour returned by Score::score has a score at least as high as every passing colour; and if fewer than the desired number of colours come back, every passing colour is itself returned or lies within 15 degrees of hue of a returned one.", "quantifier": "all maps, orders, desired counts and filters", "why_tests_cant": "maximality over every candidate of every map", "anchors": ["src/score/score.rs:score"]}
{"id": "C74", "title": "Wsmeans returns cluster means", "statement": "After at least one iteration there is one assignment of the distinct pixels to clusters such that every returned colour is the colour of the population-weighted L*a*b* mean of one non-empty cluster, its count is the number of pixels of that cluster, and the pixel map sends every pixel to the mean colour of its own cluster.", "quantifier": "all pixel lists, starting clusters, RNG streams, iteration counts", "why_tests_cant": "k-means iteration over arbitrary data", "anchors": ["src/quantize/quantizer_wsmeans.rs:quantize"]}
{"id": "C75", "title": "Wsmeans moves pixels to closer clusters, but not always to the nearest", "statement": "In every reassignment a pixel changes cluster only for a strictly closer one. The result after convergence need not be nearest-colour: because the distance table is sorted before it is indexed by cluster number, a pixel can stay with a colour although another returned colour is less than half as far away.", "quantifier": "all clusters, pixels and tables; one exhibited run for the refutation", "why_tests_cant": "depends on the order of cluster distances", "anchors": ["src/quantize/quantizer_wsmeans.rs:quantize"]}
{"id": "C76", "title": "A colour survives a trip through CAM16", "statement": "Cam16::from_int never panics, and followed by to_int it returns the same colour, with its alpha replaced by 255: every opaque ARGB comes back unchanged through the appearance model and its inverse.", "quantifier": "all i64, every accurate libm", "why_tests_cant": "16.7 million colours through pow, atan2, sin, cos and a 3x3 inverse published with eight decimals, for every platform libm", "anchors": ["src/hct/cam16.rs:from_int", "src/hct/cam16.rs:to_int", "src/hct/cam16.rs:viewed", "src/hct/cam16.rs:xyz_in_viewing_conditions"]}
{"id": "C77", "title": "Colour operations do not panic", "statement": "Hct::from_int, Hct::from, any sequence of setters, fix_if_disliked, harmonize, hct_hue, cam16_ucs, TonalPalette (every constructor from hue and chroma, every read after any history, equality and hashing), CorePalette, the legacy Scheme constructors, Score::score (populations fitting an i64), the DynamicScheme constructors and the material roles return instead of panicking. The exceptions are exact: palettes from lists of the wrong length, Content schemes for hues that round to 360, Fidelity schemes whose complement search meets such a hue, and relative_temperature of a colour that is neither the input nor on its wheel.", "quantifier": "all i64 colours, all floats including NaN and infinities, all histories, every accurate libm", "why_tests_cant": "asserts, table indices and unwraps deep inside the solver and the appearance model are reached for any of 2^64 colours and any triple of floats", "anchors": ["src/hct/hct.rs", "src/hct/cam16.rs", "src/hct/src/hct_solver.rs", "src/blend/blend.rs", "src/palettes/tonal_palette.rs", "src/palettes/core_palette.rs", "src/scheme", "src/score/score.rs", "src/temperature/temperature_cache.rs", "src/dynamiccolor/dynamic_color.rs"]}
{"id": "C78", "title": "The tone asked for is the tone delivered", "statement": "Hct::from(hue, chroma, tone) returns a colour whose tone is within 1 of the requested tone (brought into 0..100), however unattainable the chroma; TonalPalette::get(t), on a palette made from any hue and chroma or from any colour and after any history of reads, returns a colour whose L* is within 1 of t.", "quantifier": "all finite hues and tones, all finite chromas up to 10^9 (negative included), all palettes and read histories, every accurate libm", "why_tests_cant": "the solver is a Newton iteration with an early exit, followed by a bisection over the edges of the RGB cube; its outcome for a continuum of requests and every platform libm cannot be sampled", "anchors": ["src/hct/src/hct_solver.rs:solve_to_int", "src/hct/src/hct_solver.rs:find_result_by_j", "src/hct/src/hct_solver.rs:bisect_to_limit", "src/hct/hct.rs:from", "src/palettes/tonal_palette.rs:get"]}
{"id": "C79", "title": "Editing or blending hue and chroma keeps the tone", "statement": "On an Hct reached from any colour by any setter calls, set_tone(t) delivers t within 1, and set_hue and set_chroma change the tone by at most 1 (plus 10^-6); fix_if_disliked either returns the colour unchanged or one of tone 70 within 1; harmonize and hct_hue return a colour whose L* is that of the first colour within 1 (plus 10^-6).", "quantifier": "all i64 colours, all setter histories (any floats), all finite arguments of the last call, all blend amounts, every accurate libm", "why_tests_cant": "any of 2^64 colours, any history of edits and any hue", "anchors": ["src/hct/hct.rs:set_hue", "src/hct/hct.rs:set_chroma", "src/hct/hct.rs:set_tone", "src/dislike/dislike_analyzer.rs:fix_if_disliked", "src/blend/blend.rs:harmonize", "src/blend/blend.rs:hct_hue"]}
{"id": "C80", "title": "Contrast survives the gamut", "statement": "Two colours obtained from Hct::from with tones s and t have, by their delivered tones, at least 92% of the contrast ratio of s and t; if the tones asked for differ by 41 the delivered contrast is at least 3, and if they differ by 52 it is at least 4.5. The same holds for the colours read from any two tonal palettes (of any hues and chromas, after any reads) at integer tones 41 or 52 apart.", "quantifier": "all finite hues and tones, all finite chromas up to 10^9, all pairs of palettes and read histories, every accurate libm", "why_tests_cant": "pairs of continuous triples; the delivered tone depends on the solver's outcome on a given platform", "anchors": ["src/hct/hct.rs:from", "src/palettes/tonal_palette.rs:get", "src/contrast/contrast.rs:ratio_of_tones"]}
{"id": "C81", "title": "Legacy schemes are legible", "statement": "In Scheme::light, dark, light_content and dark_content of any colour, every on-X role has a contrast ratio of at least 4.5 with X (19 pairs, counting surface, background, surface variant and inverse surface), and outline has at least 3 with surface and background, measured on the L* of the colours handed out.", "quantifier": "all i64 source colours, both modes, both kinds, every accurate libm", "why_tests_cant": "any of 2^64 source colours through the solver", "anchors": ["src/scheme/scheme.rs", "src/palettes/core_palette.rs"]}
{"id": "C82", "title": "A scheme's colours have the tones and the contrast it asks for", "statement": "For every variant, source colour, mode and contrast level, the colour a DynamicScheme hands out for a material role has the tone get_tone computed for it, within 1; so the text roles' delivered colours reach 92% of the desired ratio when it is achievable, and always 92% of the smaller of it and 4.47, on one background and on the two fixed backgrounds.", "quantifier": "all i64 colours, all constructible schemes, all roles, all contrast levels, every accurate libm", "why_tests_cant": "the delivered colour passes through the solver for each palette hue and chroma", "anchors": ["src/dynamiccolor/dynamic_color.rs:get_hct", "src/dynamiccolor/dynamic_color.rs:get_tone", "src/dynamiccolor/dynamic_scheme.rs:get_hct", "src/scheme"]}
{"id": "C83", "title": "Complement and analogous colours keep the tone", "statement": "When they return, TemperatureCache::complement gives a colour of the input's wheel (same chroma and tone requested at an integer hue) and both it and every colour of analogous have the input's tone within 1 (plus 10^-6).", "quantifier": "all i64 colours, counts and divisions, every accurate libm", "why_tests_cant": "360 solver outcomes for each of 2^64 colours", "anchors": ["src/temperature/temperature_cache.rs:complement", "src/temperature/temperature_cache.rs:analogous"]}
{"id": "C84", "title": "Temperatures lie in the documented range", "statement": "The raw temperature of every colour is a finite number between -9.66 and 8.61, so the colours of a wheel can always be sorted by temperature and relative temperatures are numbers from 0 to 1. The documented formula for the upper bound, -0.52 + chroma^1.07 / 20, is exceeded by black.", "quantifier": "all colours, every accurate libm", "why_tests_cant": "16.7 million colours, any conforming libm", "anchors": ["src/temperature/temperature_cache.rs:raw_temperature", "src/temperature/temperature_cache.rs:get_relative_temperature", "src/temperature/temperature_cache.rs:get_hcts_by_temp"]}
{"id": "C85", "title": "The complement is the colour of opposite temperature", "statement": "When it returns, TemperatureCache::get_complement gives a colour met when walking, in steps of one degree, the part of the wheel between the coldest and warmest colour that does not hold the input; no colour met there has a relative temperature nearer to one minus the input's, and none met earlier is as near. Only when no relative temperature is defined it is the wheel colour at the input's hue.", "quantifier": "all i64 colours for which it returns, any libm", "why_tests_cant": "a minimum over 360 solver outcomes for each of 2^64 colours", "anchors": ["src/temperature/temperature_cache.rs:get_complement"]}
{"id": "C86", "title": "CAM16 coordinates convert back to the colour", "statement": "For every colour, Cam16::from_ucs of its J*, a*, b*, and Cam16::from_jch of its J, C, h, give a Cam16 whose to_int is the colour made opaque; the same holds for UCS coordinates off by rounding (1e-14 in J*, 1e-13 in a* and b*; for black J* must be 0).", "quantifier": "all i64 colours, all nearby coordinates, every libm accurate to 1e-14", "why_tests_cant": "2^24 colours through exp, ln, atan2 and pow on platforms whose libm differs", "anchors": ["src/hct/cam16.rs:from_ucs", "src/hct/cam16.rs:from_jch", "src/hct/cam16.rs:to_int"]}
{"id": "C87", "title": "Higher tones are lighter", "statement": "Whatever was read from them before, a palette's colour at a tone at least 3 above another tone (of the same or another palette) has a strictly greater L*, by at least the difference of the tones minus 2.", "quantifier": "all palettes of finite hue and chroma at most 1e9 or built from a colour, all read histories, all tones 0 to 100", "why_tests_cant": "a continuum of palettes, pairs of tones and read histories", "anchors": ["src/palettes/tonal_palette.rs:get", "src/hct/src/hct_solver.rs:solve_to_int"]}
{"id": "C88", "title": "The text of a colour shows its rounded coordinates", "statement": "Hct::to_string of any colour is \"H<n> C<m> T<k>\" where n, m, k are the integers nearest to its hue, chroma and tone, written in decimal; n is in 0..360 (360 included, for hues from 359.5 on), k in 0..100.", "quantifier": "all i64 colours, every accurate libm, every formatter of f64 that shows integers as integers", "why_tests_cant": "2^24 colours; rounding up to 360 and the negative zero are corner cases", "anchors": ["src/hct/hct.rs:to_string"]}
{"id": "C89", "title": "The text of a palette tells its colours, except for listed palettes", "statement": "TonalPalette::to_string of a palette made from a hue and chroma or from a colour, after any history of reads, is \"TonalPalette.fromList([...])\" with its thirteen colours in decimal, so equal texts mean equal colours; the same for CorePalette. A palette made from a list prints \"TonalPalette.of(hue, chroma)\" (the two branches are swapped), and different lists can have the same text.", "quantifier": "all hues, chromas, colours, read histories, lists of thirteen colours and f64 formatters", "why_tests_cant": "injectivity of a text over all palettes; independence of the cache", "anchors": ["src/palettes/tonal_palette.rs:to_string", "src/palettes/core_palette.rs:to_string"]}
{"id": "C90", "title": "The six appearance attributes fit together", "statement": "For every colour, brightness Q is a fixed multiple of sqrt(J/100), colourfulness M a fixed multiple of the chroma C, and s^2 Q / 10^4 = M (to 1e-10): the correlates of one description never disagree. Rebuilding a description from J, C and hue with from_jch gives the same Q, M, J*, and the same saturation, except for black, where the saturation is NaN.", "quantifier": "all i64 colours, every libm accurate to 1e-13", "why_tests_cant": "2^24 colours and every libm; black is a singular point", "anchors": ["src/hct/cam16.rs:from_int_in_viewing_conditions", "src/hct/cam16.rs:from_jch_in_viewing_conditions"]}
{"id": "C91", "title": "The CAM16 distance behaves like a distance", "statement": "Cam16::distance is symmetric, is 1.41 times the 0.63th power of the length of the vector between the CAM16-UCS coordinates, and is zero exactly for two descriptions of the same colour.", "quantifier": "all pairs of i64 colours, every libm accurate to 1e-14", "why_tests_cant": "2^48 pairs of colours; telling neighbours apart depends on the error of the coordinates", "anchors": ["src/hct/cam16.rs:distance", "src/hct/cam16.rs:from_int"]}
{"id": "C92", "title": "Analogous colours are equal steps of temperature apart", "statement": "analogous takes wheel colours clockwise from the input: with one step being the relative temperature travelled in a whole turn divided by divisions, colour number i is taken at the first offset at which the temperature travelled reaches i steps. It is taken at the same offset as the one before exactly when that offset has reached i+r steps, r being the number of colours already taken there; what is left after a turn is taken at offset 360. Temperatures and step determine all offsets.", "quantifier": "all i64 colours, counts, divisions and libms", "why_tests_cant": "the accumulated temperature of 360 solver runs for every colour", "anchors": ["src/temperature/temperature_cache.rs:analogous"]}
{"id": "C93", "title": "The Wu quantizer cuts the widest box at the best plane", "statement": "The colours of QuantizerWu are the means of boxes obtained from the whole colour cube by at most n-1 rounds. A round takes a box whose spread (sum of squared distances of its opaque pixels from their mean, rounded up) is the largest. It cuts it by a plane between cells with pixels on both sides such that no such plane leaves a smaller total spread (within 1e-14 of the pixels' power). Only a box whose pixels share one cell cannot be cut; it then counts as having no spread. Rounds end early only when no box has spread. Because a failed round is lost, an image with pixels in n cells may get fewer than n colours.", "quantifier": "all images of at most 6,876,129 opaque pixels, all colour counts, all hash orders", "why_tests_cant": "any image; ties, rounding of f64 scores and exactness of f64 tables over all pixel counts", "anchors": ["src/quantize/quantizer_wu.rs:create_boxes", "src/quantize/quantizer_wu.rs:cut", "src/quantize/quantizer_wu.rs:maximize", "src/quantize/quantizer_wu.rs:variance"]}
{"id": "C94", "title": "Every material role has its documented palette and default tone", "statement": "Each of the 54 colours of a scheme is its documented palette's colour at the role's tone. At contrast level 0 that tone is a fixed whole number depending only on the role, on light or dark, and on whether the variant is monochrome (primary 40/80, primary container 90/30, ...); in the Fidelity and Content variants this holds for all roles but the accents and their containers. Backgrounds, inverse surface, shadow, scrim and tint keep their tone at every contrast level; the surfaces pass through the documented tones at contrast levels up to -1, 0, 0.5 and from 1.", "quantifier": "all schemes (any source colour, palettes, variant, light or dark), all roles, all accurate pow functions", "why_tests_cant": "tests fix a few source colours; the tones go through the contrast solver, so independence from the palettes and the platform's pow needs an argument for all of them", "anchors": ["src/dynamiccolor/material_dynamic_colors.rs", "src/dynamiccolor/dynamic_color.rs:get_tone", "src/dynamiccolor/dynamic_color.rs:get_argb", "src/dynamiccolor/dynamic_scheme.rs"]}
{"id": "C95", "title": "Colours an application defines itself resolve, meet their contrast, avoid the illegible zone and keep their tone distance", "statement": "A DynamicColor whose parts are there (tone functions giving tones 0 to 100, contrast curves of ratios 1 to 21 where it has a background, a background where it has a tone delta pair with a delta of at most 40) resolves to a tone between 0 and 100 through any chain of backgrounds. On one background it meets its contrast curve whenever some tone does. A background, alone or paired, never lands in tones 50 to 59. Two paired colours of different names are at least the delta apart, on the sides the polarity asks for. On two backgrounds at least ten tones apart on one side of that zone it meets its curve on both whenever some tone does. Refuted: unnamed pairs coincide; a stay-together pair can end on both sides of the zone; a delta above 40 can give a tone above 100; on two backgrounds in the zone the contrast can be missed although black meets it on both. Missing parts panic.", "quantifier": "all dynamic colours and chains of backgrounds, all schemes and contrast levels, all accurate pow functions", "why_tests_cant": "an application may define any colour; tests cover the 54 material roles at most", "anchors": ["src/dynamiccolor/dynamic_color.rs:get_tone", "src/dynamiccolor/dynamic_color.rs:from_palette", "src/dynamiccolor/src/tone_delta_pair.rs", "src/dynamiccolor/src/contrast_curve.rs"]}
{"id": "C96", "title": "Images of few colours: a colour alone in its cluster is returned unchanged, and a flat image gives its colour", "statement": "If no other colour of the image is mapped to the same result colour, a colour comes back as itself (made opaque) with its exact number of pixels. An image of a single colour always quantizes to exactly that colour and all its pixels, opaque or not. The k-means quantizer started from the image's own colours in the order of their first pixels keeps all of them with exact counts. Refuted: the colours survive whatever the order of the starting colours; since Celebi passes Wu's colours in hash-map order, the same image quantized twice can keep its three colours once and melt two of them the other time.", "quantifier": "all images, all colours, all starting clusters, random streams and iteration limits, all accurate pow functions", "why_tests_cant": "there are 2^32 colours and unboundedly many images; the defect shows only for some hash-map orders", "anchors": ["src/quantize/quantizer_wsmeans.rs:quantize", "src/quantize/quantizer_celebi.rs:quantize", "src/utils/color_utils.rs:lab_from_argb"]}
{"id": "C97", "title": "Viewing conditions are those of the published CAM16 model", "statement": "For every ordinary white point, adapting luminance, background lightness and surround, with or without discounting of the illuminant, ViewingConditions::make returns, and its twelve quantities (n, z, N_bb, N_cb, c, N_c, the three chromatic-adaptation gains, F_L, its fourth root and A_w) agree to nine digits with the formulas of the CAM16 publication. Arguments left out, and luminances that are not positive, mean the defaults; with all defaults the quantities are the known numbers for sRGB, to six decimals, on every platform.", "quantifier": "all white points with X,Y,Z up to 200 and cone responses from 20 to 200, luminances from 0.01 to 10000, backgrounds up to 100, surrounds from 0 to 2, all accurate pow and exp", "why_tests_cant": "six floating-point arguments and any platform's elementary functions; a test compares a few decimals at one point", "anchors": ["src/hct/viewing_conditions.rs:make", "src/hct/viewing_conditions.rs:s_rgb", "src/utils/color_utils.rs:y_from_lstar"]}
{"id": "C98", "title": "The attributes of a colour are those of the published CAM16 model", "statement": "Under every ordinary viewing conditions (C97), the hue, J, Q, chroma, M, s and the CAM16-UCS coordinates that Cam16 holds for a stimulus X, Y, Z agree with the formulas of the CAM16 publication to six digits (hue to nine decimals), for cone responses that agree with the published ones to a part in a million; small values agree to six decimals. For every screen colour other than black under the standard conditions the conversion returns, and X, Y, Z are those of IEC 61966-2-1 to seven decimals.", "quantifier": "all ordinary viewing conditions, all X, Y, Z from 0 to 200 with cone responses of at least 1/2000, all ARGB integers other than black, all accurate elementary functions", "why_tests_cant": "nine floating-point arguments and any platform's elementary functions; tests compare a few colours under one set of conditions to a tolerance", "anchors": ["src/hct/cam16.rs:from_xyz_in_viewing_conditions", "src/hct/cam16.rs:from_int", "src/utils/color_utils.rs:xyz_from_argb", "src/hct/viewing_conditions.rs:make"]}
{"id": "C99", "title": "Conversions between ARGB, XYZ, L*a*b* and L* follow the published formulas", "statement": "A channel is decoded by the curve of IEC 61966-2-1; the XYZ, the L*a*b* (white D65) and the lightness of a colour are those of IEC 61966-2-1 and CIE 15; the luminance of a lightness and the lightness of a luminance are the CIE ones; the contrast of two tones is the WCAG contrast (Y+5)/(Y'+5) of their luminances; and a linear value, the grey of a lightness and a stimulus the screen can show are encoded channel by channel to the nearest of the 256 steps of the curve (up to a ten-thousandth of a step).", "quantifier": "all ARGB integers, all channels, all doubles from 0 to 100, all displayable X, Y, Z, all accurate elementary functions", "why_tests_cant": "2^24 colours, all doubles and any platform's pow; tests compare a handful of colours", "anchors": ["src/utils/color_utils.rs:linearized", "src/utils/color_utils.rs:delinearized", "src/utils/color_utils.rs:xyz_from_argb", "src/utils/color_utils.rs:argb_from_xyz", "src/utils/color_utils.rs:lab_from_argb", "src/utils/color_utils.rs:lstar_from_argb", "src/utils/color_utils.rs:y_from_lstar", "src/utils/color_utils.rs:argb_from_lstar", "src/contrast/contrast.rs:ratio_of_tones"]}
{"id": "C100", "title": "The temperature of a colour follows the published formula", "statement": "The raw temperature of a colour is -0.5 + 0.02 C^1.07 cos(h - 50), the formula of Ou, Luo, Woodcock and Wright (2004), where C and h are the CIELAB chroma and hue of the colour, to within a ten-thousandth; every colour has such a chroma and hue.", "quantifier": "all colours and all accurate elementary functions", "why_tests_cant": "2^24 colours and any platform's pow, atan2 and cos; tests compare five colours", "anchors": ["src/temperature/temperature_cache.rs:raw_temperature"]}
{"id": "C101", "title": "Colours are made from L*a*b* by the published formula", "statement": "For every L*, a*, b* whose stimulus (CIE 1976 L*a*b*, white D65) an sRGB screen can show, each channel of the colour made from it is the one whose encoded value is nearest to that stimulus, up to a part in ten thousand of a step.", "quantifier": "all finite L*, a*, b* in the gamut of sRGB and all accurate elementary functions", "why_tests_cant": "2^192 inputs, and the two branches of the curve meet at a knee where rounding decides", "anchors": ["src/utils/color_utils.rs:argb_from_lab", "src/utils/color_utils.rs:_lab_invf"]}
{"id": "C102", "title": "A colour made from hue, chroma and tone has that hue and chroma", "statement": "For every hue, chroma and tone that are not those of a grey, a colour is made whose tone is within 1 of the tone asked for. It is the nearest 8-bit colour to a linear sRGB colour which, by the published model CAM16 under the standard viewing conditions, has the hue asked for (to a billionth) and the chroma asked for (to a millionth); or the search for such a colour reported that there is none and the colour is the limit of the gamut.", "quantifier": "all finite hues, chromas from 0.00011 to a billion and tones from 0.00011 to 99.9998, and all accurate elementary functions", "why_tests_cant": "the requests are continuous, and the answer comes out of a Newton iteration with a fixed number of rounds in floating point", "anchors": ["src/hct/src/hct_solver.rs:find_result_by_j", "src/hct/src/hct_solver.rs:solve_to_int", "src/hct/hct.rs:from"]}
{"id": "C103", "title": "Palettes, setters, blends and schemes keep hue and chroma", "statement": "Every colour read from a tonal palette at a tone from 1 to 99, every colour made by a setter, by harmonizing or by blending hues, and every role of the dynamic and of the older schemes has, unless it is a grey, the hue and the chroma of its palette (or the coordinates the call keeps) by the published model CAM16 up to rounding to 8 bits, or the search found no colour with that hue and chroma and the colour is the limit of the gamut.", "quantifier": "all palettes and histories of reads, all histories of setter calls, all pairs of colours and amounts, all schemes and roles, and all accurate elementary functions", "why_tests_cant": "hue and chroma are continuous, and a palette can be read in any order", "anchors": ["src/hct/hct.rs:set_hue", "src/hct/src/hct_solver.rs:solve_to_int", "src/palettes/tonal_palette.rs:get", "src/blend/blend.rs:harmonize", "src/scheme/scheme.rs:light_from_core_palette", "src/dynamiccolor/dynamic_color.rs:get_hct"]}
{"id": "C104", "title": "Pale colours are always found", "statement": "For every hue, the colour that is made for a chroma of at least 0.00011 and at most 4 and a tone from 21 to 92, for a chroma of at most 5.5 and a tone from 21 to 90, of at most 6 and a tone from 24 to 90, of at most 8 and a tone from 52 to 87, or of at most 10 and a tone from 52 to 77, has, by the published model CAM16 and up to rounding to 8 bits, exactly the hue and the chroma asked for, and its tone is within 1 of the one asked for: the search for it always succeeds and the fallback at the limit of the gamut is never used. So the neutral palette of every source colour has the hue of that colour and the chroma 4 at the tones 21 to 92, its neutral variant palette the chroma 8 at the tones 52 to 87, and a role of a scheme whose palette is that pale for the tone of the role has exactly the hue and the chroma of its palette. The setters keep this: a change of hue, chroma or tone whose result is that pale has exactly the hue and the chroma kept or set. In the older dark schemes the roles on_background, on_surface and inverse_surface have the hue of the source colour and the chroma 4, and on_surface_variant and outline the chroma 8; in the light ones outline_variant has the chroma 8.", "quantifier": "all finite hues, all chromas and tones in these ranges, all source colours, variants, contrast levels and roles, all histories of reads of a palette, and all accurate elementary functions", "why_tests_cant": "the three coordinates are continuous and the search stops after five rounds, so success at sample points says nothing about the points between them", "anchors": ["src/hct/src/hct_solver.rs:find_result_by_j", "src/hct/hct.rs:from", "src/palettes/tonal_palette.rs:get", "src/palettes/core_palette.rs:of", "src/dynamiccolor/dynamic_color.rs:get_hct"]}
