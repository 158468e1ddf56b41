{
 "C06": {
  "note": "The half-open range is false: tiny negative angles give exactly 360. The exact behaviour is proved and the strict bound is refuted with a witness."
 },
 "C61": {
  "status": "partial",
  "note": "Proved with no condition for every light scheme of any variant and every scheme, light or dark, of the seven variants with tabulated tones, built from any colour at any contrast level (C61_constructed_schemes). For dark Fidelity and Content schemes it is proved that the upward search can only end on a tone, and that all roles then resolve; missing is that this search always ends, which needs the solver's chroma error to be under 0.4."
 },
 "C62": {
  "note": "Every text, icon and line role, at any contrast level. For Fidelity and Content under source_tones, which C62_constructed_schemes proves of every constructed scheme, dark ones as in C61; the roles on fixed colours are unconditional. Achievable means some tone reaches the ratio against all its backgrounds."
 },
 "C63": {
  "note": "Distance up to 1e-12; Fidelity and Content accents under source_tones (see C62), fixed colours unconditional."
 },
 "C64": {
  "note": "All background roles, not only containers; also that fixed colours stay on one side of the zone."
 },
 "C15": {
  "note": "Range up to 1e-6 and monotone up to 1e-5 for any pow accurate to 1e-10; black is exact for any pow; the range is exact for a monotone pow exact at 1."
 },
 "C31": {
  "note": "For every pow whose relative error is at most 1e-12 on finite positive bases; no condition on sin, cos, atan2, exp, ln. Without an accuracy assumption the claim is refuted."
 },
 "C32": {
  "note": "For every libm accurate to 1e-13 (SpecCam.v) no integer panics; for any libm at all, a returned hue is in range."
 },
 "C78": {
  "note": "For every libm accurate to 1e-13 whose pow is monotone and keeps NaN and infinity (SpecTone.v). Chroma up to 10^9; larger requests are not covered."
 }
}