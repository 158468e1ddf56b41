# Formal model of material-color-utilities-rs in Rocq (Coq 8.16.1)

## What is modelled
Every non-test function of `/repo/src` that a property touches is modelled as a total Gallina
function, one definition per Rust function, with the file and lines in a comment.

* **f64** is Flocq's `binary_float 53 1024` (IEEE-754 binary64, round to nearest even, one NaN).
  `+ - * /`, `sqrt`, comparisons, `abs`, `round`, `floor`, `ceil`, `%`, `as i64`, `as f64` are
  defined exactly.  Decimal literals are the correctly rounded value of the decimal, computed inside Coq.
* **i64** is `Z`; every arithmetic operation that can leave the i64 range in the code returns
  `Panic` (debug-build semantics) where a property depends on it.
* **Panics** (assert, index, unwrap, overflow, remainder by zero) are the explicit value `Panic` of
  `res A := Ok a | Panic`.  Loops that are not structurally bounded take fuel and return `Panic`
  on exhaustion only if exhaustion is proved impossible (stated per function).
* **libm** (`powf, exp, ln, sin, cos, atan2`) is *not* specified bit-for-bit by Rust.  The model
  is parametrised by a record `Libm`; a theorem that needs accuracy says so through an explicit
  premise, and an instance satisfying the premise is constructed.
* **HashMap**: association list; iteration order is an explicit argument (any permutation).
* **StdRng**: an arbitrary stream supplied as an argument.
* `&mut self` methods return the new object.
* `slice::sort_by` is a stable insertion sort; only its specification (a sorted, stable permutation) is used.
* **Loop fission**: where one Rust loop updates several independent variables (Wu's moments, Wsmeans' sums) the
  model may run one recursion per variable; the comment at the definition says so.

### Model files
| Model (rocq/theories) | Source (/repo/src) |
| --- | --- |
| F64.v | `f64` and `i64` of the language: IEEE operations, casts, checked integer arithmetic, `res` |
| MathUtils.v, ColorUtils.v, StringUtils.v | utils/ |
| Contrast.v | contrast/contrast.rs |
| ViewingConditions.v, Cam16.v, HctSolver.v, Hct.v | hct/, blend/, dislike/ (the last two in Hct.v) |
| Palettes.v, LegacyScheme.v | palettes/, scheme/scheme.rs |
| DynamicScheme.v, DynamicColor.v, MaterialDynamicColors.v, Schemes.v | dynamiccolor/, the nine scheme_*.rs |
| Temperature.v, Score.v | temperature/, score/ |
| QuantizerMap.v, QuantizerWu.v, QuantizerWsmeans.v | quantize/ (QuantizerWsmeans.v also holds quantizer_celebi.rs and the point provider) |
| Text.v | the `to_string` functions of hct.rs and tonal_palette.rs |

Every non-test function of /repo/src is in one of these files, except those listed next.

## What is not modelled
* `Stopwatch`, `debug_log` and `elapsed_milliseconds` of quantizer_wsmeans.rs (timing and logging).
* SipHash: the model keeps the sequence of values fed to the hasher.  Two values that feed the same sequence hash
  alike; that different sequences may collide is never excluded by a theorem.
* The digits `Display` prints for an f64: the text theorems (C88, C89) hold for an arbitrary formatter `fmt`.
* The bit-level result of libm (below), allocation failure, stack depth, threads (the code has none).
* Release-build wrap-around of i64: an overflow is `Panic`, as in a debug build.

## Trusted base
* Coq 8.16.1's kernel, including `vm_compute`; `coqchk` rechecks the compiled files without it.
* The axioms that `Print Assumptions` lists under each theorem of the `Props*.v` files.  They are the standard library's
  axioms of the real numbers and of classical logic, and no others; the list per theorem is at the end of this file.
* The modelling choices above: that each definition says what the cited lines of Rust do.
* Flocq 4.1.0 is used for the definition of binary64 and its correctness theorems; it adds no axioms.

No theorem has a hypothesis about the code.  Hypotheses about the platform's elementary functions are explicit:
* `pow_defined`, `pow_accurate eps`, `pow_monotone` (Spec.v): pow of finite non-negative numbers is a number, has
  relative error eps, is monotone.
* `libm_accurate eps` (SpecCam.v): the same for pow, sin, cos, atan2, exp and ln, each on the range the code uses;
  eps is 1/10^13, and 1/10^14 in the theorems on uniform coordinates and distances (C86, C91).
* `pow_special` (SpecTone.v) and `pow_one` (SpecExact.v): exact values at 0 and 1, as every libm has them.
RefLibm.v defines functions that satisfy all of them at once (correctly rounded results of the real functions), so the
hypotheses are consistent.  SampleLibm.v (a crude but computable libm) and stub_libm serve only examples and refutations,
where one libm is enough.

Functions whose loops have no structural bound take fuel.  `Panic` by lack of fuel stands for non-termination, and the
theorems on totality (C31, C77) show it does not occur.  The one loop for which this is open is the upward chroma search
of dark Fidelity and Content schemes (C61, partial).

### Theorems that prove part of a property
`C61_upward_search_finds_a_tone_partial`, `C61_dark_schemes_partial`, `C61_roles_resolve_partial`: the roles resolve to a
tone in [0,100] for every scheme, provided the upward search of a dark Fidelity or Content scheme ends.

## Plan per property
- **C01** Packing RGB into ARGB keeps each channel. Z bit arithmetic; Z.testbit / Z.land-lemmas.
- **C02** Unpack then repack is the identity exactly on opaque 32-bit colours. Same; case split on the opaque range.
- **C03** Hex formatting has a fixed shape and loses exactly the alpha. String model (list of ascii); formatting of a byte computed by exhaustion over 256 values lifted by forallb_forall, concatenation by structural lemmas.
- **C04** argb_from_hex accepts exactly the hex numerals that fit in i64. from_str_radix modelled digit by digit with checked arithmetic; independent grammar as an inductive relation; equivalence by induction on the digit list.
- **C05** Integer degree sanitising. Z.rem lemmas + overflow bounds.
- **C06** Floating degree sanitising. fmod modelled exactly on binary64; Flocq correctness of Bplus for the +360.
- **C07** Circular distance. Flocq real semantics of Bminus/Babs; symmetry from round_NE_opp.
- **C08** Rotation direction points along the shorter arc. Case analysis on model.
- **C09** Clamping. Bcompare reflection to R.
- **C10** Interpolation hits its endpoints. Exact cases of Bmult/Bplus by 0 and 1.
- **C11** Every conversion into ARGB yields an opaque 32-bit colour. delinearized model: clamp of saturating cast; all libm.
- **C12** Linearise/delinearise is the identity on the 256 channel values. Libm accuracy hypothesis + per-channel certified intervals (256 cases, finite domain stated).
- **C13** ARGB -> XYZ -> ARGB is the identity on colours. Per-channel enclosures and linear error analysis of the two 3x3 matrices in R, with rounding margin checked per channel value.
- **C14** ARGB -> Lab -> ARGB is the identity on colours. Error analysis through cube root.
- **C15** L* of a colour is a percentage and is monotone in luminance. Monotone rounding; the exact range follows the largest value through each rounded operation, with pow(1, y) = 1 at the top (PfExact.v).
- **C16** argb_from_lstar yields greys with the right extremes. delinearized monotone; extremes.
- **C17** Greys survive a trip through L*. 256 cases with intervals.
- **C18** y_from_lstar is monotone and maps [0,100] into [0,100]. Monotonicity of RNE operations, boundary by computation.
- **C19** Contrast ratio is symmetric, bounded and clamped. Monotone rounding of y_from_lstar and of division.
- **C20** Contrast ratio grows with distance. As C19.
- **C21** Contrast::lighter and darker return -1 or a tone. Case analysis; all libm for range part.
- **C22** Contrast::lighter and darker deliver the requested ratio. Real analysis with pow accuracy.
- **C23** The unsafe variants always return a usable tone. Case analysis.
- **C24** foreground_tone meets the ratio whenever either direction can. Uses C22.
- **C25** enable_light_foreground produces tones that allow white text. Case analysis on rounded tone.
- **C26** Contrast curves interpolate their four control points. lerp endpoint lemmas.
- **C27** An Hct is always coherent with its ARGB. Invariant by induction over the list of operations.
- **C28** Hct::from_int keeps its integer and equality agrees with hashing. Case analysis.
- **C29** The solver only returns opaque colours. Every return path ends in argb_from_rgb/linrgb (C11).
- **C30** Degenerate HCT requests give the grey of that tone. Guard analysis.
- **C31** Solving does not panic. Index bound for the critical-plane table (loop invariant on the plane indices), Newton iteration total.
- **C32** Every colour has a hue in [0,360). The panic is an angle that rounds to 360, that is a colour just below the positive a-axis. For every non-black colour the second opponent value stays 1e-8 away from zero: PfHueReal reduces that to sums of one real function over the 256 channel values, HueGrid/HueData/PfHueGrid/PfHueTable are an integer-arithmetic certificate checker with a soundness proof (monotone in red and blue, so 36 500 checks settle 16.7 million colours; PfHueCheck runs it in the kernel), PfHueVc and PfHueSep bound the float errors. HueGrid and HueData are proof data, not model. The hypothesis is libm_accurate of SpecCam.v, with atan2(y,x) >= 0 for y >= +0.
- **C33** Viewing conditions reject exactly out-of-range surrounds. Case analysis + libm-free bounds.
- **C34** TonalPalette list round trip. List lemma.
- **C35** TonalPalette::get is independent of the call history. Invariant on the cache by induction over calls.
- **C36** TonalPalette::get_hct depends on history for fractional tones. Invariant + concrete witness.
- **C37** TonalPalette equality is reflexive and symmetric but not transitive, and disagrees with Hash. Case analysis + witnesses.
- **C38** The key colour is the closest visited tone. Loop invariant.
- **C39** CorePalette list round trip. List lemma.
- **C40** CorePalette::of uses the documented hues and chromas. Unfolding against an independent table.
- **C41** Legacy schemes read the documented tones. Unfolding against an independent table, over all histories.
- **C42** Score returns between 1 and max(desired,1) colours, all from the input or the fallback. Loop invariants.
- **C43** Score's colours have distinct hues. Loop invariant (pairwise).
- **C44** Score ranks by score and drops weak colours. Sort lemmas.
- **C45** Score is deterministic only when scores are distinct. Sort of permutations with distinct keys; witness for ties.
- **C46** The temperature wheel cannot be indexed at hue 360. Direct from the model of indexing.
- **C47** analogous returns exactly the requested number of colours with the input in place. Loop invariant.
- **C48** Temperatures are sorted and relative temperatures are percentages. Sortedness.
- **C49** Temperature caches are transparent. Induction over call histories.
- **C50** is_between is membership in the clockwise arc. Real/float comparison reasoning.
- **C51** QuantizerMap counts opaque pixels exactly. Induction over pixel list.
- **C52** Wu indices are in bounds and injective. Z shifts.
- **C53** Wu's moments are exact 3-D prefix sums. Loop invariants for three nested loops.
- **C54** Wu boxes stay disjoint and cover the histogram. Invariant over the box array.
- **C55** Wu returns at most max_colors opaque colours. From C53/C54.
- **C56** Wu overflows on large uniform images. Witness on the model.
- **C57** Wsmeans populations add up to at most the number of input pixels. k-means loop invariants.
- **C58** Wsmeans maps every input pixel to an output colour. Same.
- **C59** Wsmeans degenerate arguments. Direct.
- **C60** Celebi composes Wu and Wsmeans. Composition.
- **C61** Material roles always resolve to a tone in [0,100]. Case split over roles with symbolic contrast level. The downward search ends because black has chroma 0 and every other colour has positive chroma (PfSearchA.v, PfSearch.v); the upward search, once past white, can never return, so it returns tones only. That the upward search ends is not proved.
- **C62** Text roles reach the requested contrast, and at least min(ratio, 4.47) when it cannot be reached (PfFloor: the better of black and white is always at 4.47). From C22/C24.
- **C63** Tone-delta pairs keep their distance. Branch analysis of the adjustment rounds with float order lemmas.
- **C64** Background roles avoid the awkward zone. Branch analysis.
- **C65** A DynamicColor's cache is bounded and transparent for equal-by-value schemes. Induction over histories.
- **C66** Scheme equality is too coarse for the cache. Witness.
- **C67** get_rotated_hue rotates by the band's rotation, except at breakpoints. Loop lemma.
- **C68** Scheme constructors use the documented palettes. Unfolding.
- **C69** Monochrome schemes are grey. chroma 0 -> grey path of solver (C30).
- **C70** harmonize rotates at most 15 degrees toward the source. Float order reasoning.
- **C71** Blending endpoints. Unfolding; the mixed coordinates at amounts 0 and 1 stay within the tolerance of C86 (at 0 they are exact), so the colours come back.
- **C72** Dislike analysis. Case analysis.
- **C73** Score: first colour is best, short results are complete. Sort and loop invariants.
- **C74** Wsmeans returns cluster means. Loop invariants for the sums and the centroids (PfKmeans.v).
- **C75** Wsmeans moves pixels closer but not always to the nearest. Loop lemma; a run exhibited for the refutation.
- **C76** A colour survives a trip through CAM16. Staged error analysis of the forward and the inverse model in R (SpecCam.v states what the libm must satisfy; PfVc, PfRel, PfCamA-H, PfCamTrip); errors reach 1e-4 in the cone responses, and 2e-3 is enough for the delinearised channel.
- **C77** Colour operations do not panic. C31 (the solver) and C32 (the appearance model) close the two places where a colour operation can panic; everything else follows by induction over loops and histories (PfTotal). The material roles are covered for the seven variants with tabulated tones.
- **C78** The tone asked for is the tone delivered. Three ways out of the solver. (a) Greys: the L* of the grey with the requested Y, C17's analysis. (b) The Newton iteration on J (PfToneReal … PfToneCode): luminance is an increasing function of J with elasticity between two constants, in exact arithmetic; a float round approximates the exact round (PfToneRound), so the iteration stays in a bracket and an accepted round has luminance within 0.002 of the target; the rejected ones (out of gamut, negative) fall through. (c) The bisection (PfTonePlane, PfToneVertex): every vertex and midpoint stays on the plane of constant Y up to 0.0097, by induction over the bisection steps. Then rounding each channel to 8 bits costs at most what PfToneBudget allows, and L* moves by at most 1.
- **C79** Editing or blending keeps the tone. C78, plus: every colour's description has a finite hue and a chroma between 0 and 4000 (PfToneHct.cam_fields), and every reachable Hct is the description of its integer (C28 history).
- **C80** Contrast survives the gamut. C78, plus: moving both tones by 1 multiplies each of the two Y + 5 by at most 1.04 (PfToneContrast), and the worst pair at distance 41 - 2 (52 - 2) still has ratio 3 (4.5).
- **C81** Legacy schemes are legible. The tones of each pair of SpecToneRoles differ by 41 or 52 (by listing the roles), and the palettes behind are of finite hue and chroma (PfToneScheme); then C80.
- **C82** A scheme's colours have the tones asked for. Every palette a constructor builds is `fresh` with finite hue and chroma (PfToneDynamic.constructed, one case per variant), so get_hct is a palette read, C78; the contrast follows from C62 and C80.
- **C83** Complement and analogous keep the tone. The answers are members of the wheel (loop invariants), whose members are Hct::from at the input's chroma and tone; then C78. The examples need a colour whose hue is surely below 359.5: yellow (PfWarm).
- **C84** Temperatures lie in the documented range. L*a*b* of an sRGB colour has |a| <= 247.1 and |b| <= 172.8 (PfTempRange: X and Y of a colour are within a factor, and so are their cube roots), so chroma^1.07 <= 453; then C48 applies to every colour (PfTempAll). Black has a = b = 0, which refutes the documented formula.
- **C85** The complement is the colour of opposite temperature. Loop invariant of the search (PfComplement.loop_best): the answer so far is the first of least gap among those visited. The case with two temperatures needs a platform on which 360 solver runs can be evaluated; the example uses one with trivial functions (stub_libm), where the wheel of a dark red is one grey.
- **C86** CAM16 coordinates convert back to the colour. Error analysis on top of C76: PfUcsA (J* and the logarithmic chroma), PfUcsB (distance and direction of the vector a*, b*), PfUcsC (composition with the inverse model of C76). Assumes libm_accurate with 1e-14, since exp and ln amplify errors tenfold; RefLibm meets it.
- **C87** Higher tones are lighter. From the tone bounds of C78.
- **C88** The text of a colour shows its rounded coordinates. Text.v models the `to_string` functions over an arbitrary f64 formatter; the standard library's decimal numerals are the specification. Ranges of hue, chroma and tone from C32 and C15.
- **C89** The text of a palette tells its colours, except for listed palettes. Cache invariance (C35), injectivity of numerals and of comma-separated lists; a pair of lists that differ in the place of a black exhibits the loss.
- **C90** The six appearance attributes fit together. Relative-error analysis of the last lines of from_int and from_jch (PfAttr.v), on top of the ranges of C76; the constants are kq in [151,161] and km in [0.784,0.797] for every accurate libm.
- **C91** The CAM16 distance behaves like a distance. Symmetry is exact (float subtraction is antisymmetric and squares forget the sign); colours that differ have different UCS coordinates because C86 converts them back (PfDist.v).
- **C92** Analogous colours are equal steps of temperature apart. Loop invariant (PfAnalogous.steps_follow): the accumulator is the temperature travelled so far, and no offset since the last colour has reached the next step. The rule is an inductive relation (SpecAnalogous.follows), shown to determine the offsets.
- **C93** The Wu quantizer cuts the widest box at the best plane. The f64 table of squared norms is exact because its sums stay below 2^53 (PfWuBest); a plane's score is the power minus the total spread, up to 2e-15 relative error (PfWuCut); the loop of create_boxes is related step by step to the inductive relation SpecWuBest.rounds (PfWuRounds), and the result is restated about the image's pixels instead of the map of counts (PfWuGreedy).
- **C94** Every material role has its documented palette and default tone. SpecRoleTable lists palettes and tones by role name. PfRoleTable resolves each role at contrast level 0: either the default tone already reaches its ratio (a computation without libm), or neither white nor black does, and then the contrast search provably ends at white or black for every accurate pow.
- **C95** Colours an application defines itself. SpecCustom says which colours are complete, by induction over the chain of backgrounds. PfCustom redoes the pair and zone arguments for any delta up to 40 and any curves, by induction on completeness, and computes four counterexamples.
- **C96** Images of few colours. PfFew shows that the Lab round trip tolerates an error of 2e-9, that the mean of n equal numbers is within 1e-12, and that squared Lab distances below 1e-20 mean coordinates within 1e-9; PfFewColors shows that clusters sitting on the colours of the image stay there, and computes an order of the starting colours that melts two of three.
- **C97** Viewing conditions. SpecViewing states the CAM16 formulas over the reals; PfViewingReal follows every operation of [make] with relative error bounds (the clamp of D, the branch of c at surround 1 and the knee of the luminance formula at L* = 8 included); PfViewingStd brackets the real formulas at the defaults with rational powers.
- **C98** Appearance. SpecAppear states steps 2 to 10 of CAM16 over the reals. PfAppearReal bounds the cone responses and solves the opponent equations backwards, so that the opponent coordinates of slightly moved responses are exactly the computed ones (grey stimuli included, where a* and b* cancel); PfAppearParts and PfAppear follow J, Q, t, C, M, s and the uniform coordinates, relatively where a value is at least 1e-27 and absolutely below; PfAppearAll applies this to ordinary conditions and to screen colours. What is not claimed: that the conversion returns for every stimulus (its assertion hue < 360 can fail by rounding).
- **C99** Conversions. SpecCie states the CIE, IEC and WCAG formulas over the reals. PfCie shows that the code's cube root (or its straight line) and the published f have nearly the same image under the common inverse of f, whose slope is at least 0.128 on both sides of the knee, so the two agree although the code may take the other branch next to the knee; the encoding curve, which has a small jump at its knee, is bounded on both sides of it.
- **C100** Temperature. SpecWarm states the formula over the reals. PfWarmth bounds the angle through both wrap-arounds (a whole number of turns, so the cosine is unchanged), rewrites C^1.07 cos(h - 50) as C^0.07 (a cos 50 + b sin 50), which has no singularity at neutral colours, and bounds its change under the error of a* and b* from C99.
- **C101** From L*a*b*. SpecLab states the inverse formula over the reals (C101_way_back: it inverts the f of SpecCie). PfLabFormula derives the range of L*, a*, b* from the range of the channels and carries the error of each component (1.2e-11 at the knee) through the matrix to the encoding of C99.
- **C102** Hue and chroma of an answer. SpecSolve says, in terms of SpecAppear (CAM16) and SpecCie (sRGB), that an 8-bit colour is the rounding of a linear colour with a given hue and chroma. PfToneRound and its successors give the responses at the round of the iteration that answered (the same invariant that gives the tone, C78). PfSolve inverts the response curve and the matrix; PfSolveHue shows that the responses have the angle and the length asked for; PfSolveEnd assembles. Not covered: that the search answers for every colour inside the gamut.
- **C103** Hue and chroma in the API. SpecRender names the two cases of C102 once. Each theorem reduces the call to one call of the solver by the lemmas of C35, C41, C70, C79 and C82 and applies C102.
- **C104** Pale colours. The converse of C102 on a part of the gamut. With a chroma small against the root of the lightness the three responses differ so little (PfPale) that all channels are positive and at most a constant times the luminance. The contraction of C78 keeps the five values of the lightness in that range and the last luminance near the one asked for (PfPaleLoop), so no test of the search fails. The constant is 1.84, 1.38, 1.276 or 1.19, depending on the chroma; its product with the luminance must stay below 100.01, which limits the tone. PfPaleUse carries this over to the setters and to the neutral roles of the older schemes, through C103.

## Assumptions per theorem
Collected from `Print Assumptions` (tools/assumptions.py). The four axioms state: decidability of negated propositions and of
universal statements over nat (both used by the standard construction of the reals), excluded middle, functional extensionality.

* No axioms (closed under the global context) — 16 theorems:
  C01_pack_keeps_channels, C02_accessors_are_bytes, C02_accessors_read_their_bits, C02_is_opaque_iff_alpha_bits, C02_repack_identity_iff_opaque, C03_hex_shape_and_lossy_round_trip, C04_hex_parser_is_exact, C05_sanitize_int, C05_sanitize_int_no_overflow, C09_clamp_int, C28_equality_is_an_equivalence_respected_by_hash, C28_equality_is_by_integer, C51_map_counts, C51_order_irrelevant, C52_index, C52_injective.
* `ClassicalDedekindReals.sig_forall_dec`, `ClassicalDedekindReals.sig_not_dec`, `Classical_Prop.classic`, `FunctionalExtensionality.functional_extensionality_dep` — 279 theorems:
  C06_sanitize_double, C06_sanitize_double_nonfinite, C06_strict_bound_refuted, C07_difference_is_shorter_arc, C07_difference_symmetric, C08_rotation_any_angles, C08_rotation_follows_shorter_arc, C08_rotation_is_a_sign, C09_clamp_double, C10_lerp_between, C10_lerp_endpoints, C11_conversions_are_opaque, C11_delinearized_is_a_byte, C12_linearize_round_trip, C13_xyz_round_trip, C14_lab_round_trip, C15_lstar_is_a_percentage, C15_lstar_is_exactly_a_percentage, C15_lstar_of_black, C15_raising_channels_raises_lstar, C15_tone_is_exactly_a_percentage, C16_greys_are_ordered, C16_lstar_from_100_is_white, C16_lstar_gives_greys, C16_nonpositive_lstar_is_black, C17_greys_survive_lstar, C18_y_from_lstar_endpoints, C18_y_from_lstar_monotone, C18_y_from_lstar_range, C19_black_on_white, C19_ratio_bounds, C19_ratio_clamps, C19_ratio_of_equal_tones, C19_ratio_symmetric, C20_ratio_grows_with_distance, C21_any_libm, C21_lighter_darker_range, C21_tone_outside_fails, C22_darker_reaches_the_ratio, C22_lighter_reaches_the_ratio, C23_darker_unsafe, C23_lighter_unsafe, C24_foreground_tone, C25_enable_light_foreground, C25_nan_tone_unchanged, C26_curve_between, C26_curve_control_points, C27_hct_is_coherent, C28_equal_hcts_agree_everywhere, C28_from_int_keeps_its_integer, C29_solver_returns_opaque, C30_degenerate_requests_solve_to_grey, C30_hue_is_ignored, C31_from_is_from_int_of_an_opaque_colour, C31_inaccurate_pow_refuted, C31_solving_never_panics, C32_every_colour_has_a_hue_in_range, C32_returned_hue_in_range, C33_adaptation, C33_fields, C33_short_white_point_panics, C33_surround_check, C34_list_round_trip, C34_other_lengths_panic, C35_from_hct, C35_from_list, C35_from_list_source, C35_of, C36_after_get, C36_other_tones_unaffected, C36_untouched, C37_meaning, C37_not_transitive_and_hash_disagrees, C37_reflexive_unless_nan, C37_symmetric, C38_key_color, C39_as_list_has_65_entries, C39_core_list_round_trip, C39_other_lengths_panic, C40_content_of, C40_of, C41_any_palette_history, C41_content, C41_light_and_dark, C42_no_candidate, C42_score_range, C42_score_returns, C43_distinct_hues, C44_ranked, C45_order_irrelevant, C45_ties_refuted, C46_analogous_panics, C46_analogous_returns, C46_complement, C46_complement_panics, C47_analogous_shape, C48_input, C48_relative, C48_sorted, C49_caches_transparent, C50_is_between, C53_no_overflow, C53_prefix_sums, C54_boxes_partition, C55_nonpositive, C55_wu_result, C55_wu_total, C56_overflow, C56_small_images, C57_exact_refuted, C57_populations, C57_returns, C58_no_map, C58_pixel_map, C59_never_empty, C59_no_colors_panics, C59_no_iterations, C59_no_pixels, C60_celebi, C60_returns, C61_constructed_schemes, C61_dark_schemes_partial, C61_downward_search_ends, C61_key_color_roles, C61_roles_resolve_partial, C61_upward_search_finds_a_tone_partial, C62_constructed_schemes, C62_text_on_fixed_colors, C62_text_reaches_its_ratio, C63_accents_and_containers, C63_fixed_and_dim, C64_backgrounds_avoid_the_zone, C64_fixed_stays_on_one_side, C65_cache_bounded_and_sound, C66_equal_schemes_agree, C66_equal_schemes_share_the_cached_answer, C66_equality_too_coarse, C66_reading_a_palette_keeps_equality, C67_band, C67_breakpoints_unrotated, C67_outside_every_band, C67_single_and_mismatch, C68_common_fields, C68_content, C68_documented_palettes, C68_fidelity, C69_monochrome_is_grey, C70_harmonize_keeps_chroma_and_tone, C70_harmonized_hue, C70_same_hue_unchanged, C71_amount_one_is_the_second_colour, C71_amount_zero_is_the_first_colour, C71_amount_zero_keeps_coordinates, C71_blending_with_itself, C71_hct_hue_keeps_chroma_and_tone, C71_results_are_opaque, C72_disliked_iff, C72_fix_if_disliked, C72_nan_is_liked, C73_best_first_and_complete, C74_colours_are_cluster_means, C75_nearest_colour_refuted, C75_pixels_move_closer, C75_squared_distance, C76_cam16_round_trip, C77_blend, C77_core_palette, C77_hct, C77_roles, C77_schemes, C77_score, C77_temperature, C77_tonal_palette, C78_from, C78_palette_from_hct, C78_palette_of, C79_fix_if_disliked, C79_harmonize_keeps_the_tone, C79_hct_hue_keeps_the_tone, C79_set_chroma_keeps_the_tone, C79_set_hue_keeps_the_tone, C79_set_tone, C80_palette_colours, C80_requested_colours, C81_legacy_schemes_are_legible, C82_every_role_has_a_colour, C82_light_text_contrast, C82_roles_have_their_tone, C82_text_contrast, C82_text_on_fixed_contrast, C83_analogous_keep_the_tone, C83_complement_keeps_the_tone, C84_documented_formula_refuted, C84_range, C84_relative, C84_sorted, C85_complement, C85_complement_nearest, C85_ordinary, C86_jch_round_trip, C86_ucs_round_trip, C86_ucs_tolerance, C87_higher_tones_are_lighter, C87_higher_tones_are_lighter_from_colours, C88_text_of_a_colour, C89_equal_core_texts_equal_colours, C89_equal_texts_equal_colours, C89_listed_colours_refuted, C89_text_of_a_colours_palette, C89_text_of_a_listed_palette, C89_text_of_a_palette, C90_attributes_fit_together, C90_jch_attributes, C91_distance_formula, C91_distance_is_symmetric, C91_distance_tells_colours_apart, C92_analogous_steps, C92_the_rule_is_complete, C93_fewer_colours_refuted, C93_greedy, C93_two_colours, C94_default_colours, C94_default_tones, C94_every_role, C94_level_independent, C94_names, C94_palettes, C94_surfaces, C95_contrast, C95_incomplete, C95_large_difference_refuted, C95_pair, C95_resolves, C95_stay_together_refuted, C95_two_backgrounds, C95_two_backgrounds_refuted, C95_unnamed_pair_refuted, C95_zone, C96_alone, C96_any_order_refuted, C96_flat_image, C96_own_colours, C97_cam16_conditions, C97_defaults, C97_standard, C97_standard_values, C98_cam16_attributes, C98_screen_colours, C99_channel_curve, C99_colour_of_stimulus, C99_contrast, C99_encoded_channel, C99_grey_of_lightness, C99_lab, C99_lightness_of_colour, C99_lightness_of_luminance, C99_luminance_of_lightness, C99_xyz, C100_every_colour, C100_temperature, C101_colour_of_lab, C101_way_back, C102_hue_and_chroma, C102_search, C103_harmonize, C103_hct_hue, C103_legacy_schemes, C103_palette_from_hct, C103_palette_of, C103_roles, C103_setters, C104_legacy_schemes, C104_neutral, C104_neutral_variant, C104_pale, C104_palette, C104_roles, C104_search, C104_setters.
