# Formal model of ruemart/ColorMagic in Rocq (Coq 8.16.1)

## 1. What is modelled, and how

The library is a set of C++ value classes for colours (`spaces/`) plus static
functions that convert, blend, adapt, measure and combine them
(`manipulation/`).  The model is a set of total, computable Gallina functions,
one per C++ function, each with a comment citing file and lines.

**Arithmetic.**  The numeric code is written once, over a type class
`Arith F` (`Arith.v`): `+ - * /`, comparisons, `fminf fmaxf fmodf fabsf roundf
sqrtf`, literals, and the transcendental functions.  Two instances exist:

* `F32.v`: IEEE-754 binary32 as formalised by Flocq (`BinarySingleNaN`,
  round-to-nearest-even, one NaN, signed zeros, infinities, subnormals).  The
  transcendental functions (`powf cosf sinf atan2f expf log10f`) are an
  arbitrary record of functions (`oracle`), so theorems hold for *every* libm.
  Used for range / NaN / termination / crash properties and for every
  refutation that concerns machine behaviour.
* `RArith.v`: exact real arithmetic, with the mathematical `Rpower`, `cos`, ….
  Used for the algebraic laws (round trips, identities) that hold "in exact
  arithmetic", as the property says.  `x/0` is 0 in Coq's reals, so every
  theorem whose code path divides carries (or derives) the guard that the
  divisor is non-zero.

**Objects.**  The library passes raw pointers, compares pointers, returns
aliases and mutates in place, so `Heap.v` has an explicit heap: colours and RGB
space definitions live at addresses, a colour refers to its space by address.
Every function that touches an object is a computation `heap -> result`, with
outcomes (`Outcome.v`) `Ok value`, `Throw kind` (C++ exception; the heap at the throw is
kept), `Undef` (undefined behaviour: null dereference, wrong
static_cast, out-of-bounds access, uninitialised read) and `Diverge` (a loop ran out of
fuel; excluded by theorem).  Memory exhaustion and object lifetime are not
modelled (the library never frees: every `new` leaks).

A colour object carries its dynamic class and its `m_type` separately, because
`operator+` builds a plain `color_base` whose `m_type` claims otherwise.

**Simplifications.**

* Gamma pieces are shared by pointer in C++.  `GammaPtr.v` models them that way (C127-C130);
  the other files use pieces by value, justified by `C128_by_value_partial`.
* `std::sort` is modelled by a stable insertion sort.
* Matrix dimensions are natural numbers; indices of `operator()` are ints in `access` and
  naturals where the library's own loops produce them.
* White points are immutable (the library never changes one) and compared by address where the
  code compares pointers.
* Function arguments are evaluated left to right.
* `rand()` in `dissolve` is an arbitrary sequence of non-negative integers; a custom blend function
  is an arbitrary pure function.
* All NaNs are identified; `fminf`/`fmaxf` of two zeros return the first argument.
* `abs` of a float in `color_distance` is the overload for floats except where the argument is an
  int.

**Not modelled.**  `ColorMagic.cpp`, `dllmain.cpp` (empty DLL glue), the test
project.

**Doubles.**  The only expression evaluated in `double` is
`(float)(hue * M_PI / 180.f)` (color_converter.cpp:1266 and 1337).  It is the operation
`fradians` of `Arith.v`: binary64 product and quotient, then one rounding to binary32 in
`F32.v`; `x * PI / 180` in `RArith.v`.  `fmod`, `abs` and `atan2` of floats are the
float overloads of `<cmath>`; for `fmod` this makes no difference, as both are exact.

## 2. Trusted base

* Coq 8.16.1's kernel and `vm_compute`.
* The axioms printed by `Print Assumptions` under the theorems: only those of the
  standard library's reals, which Flocq also uses:
  `ClassicalDedekindReals.sig_forall_dec`, `ClassicalDedekindReals.sig_not_dec`,
  `FunctionalExtensionality.functional_extensionality_dep`, and `Classical_Prop.classic`.
  Every one is in Coq's standard library.  No axiom, parameter, admitted proof,
  functor or module type is ours.
* The reading of C++ in the model's comments: the code was read, not run.
* IEEE-754 binary32 evaluation of `float` expressions without excess precision or
  contraction (x64/SSE, MSVC default `/fp:precise`), `fminf`/`fmaxf` returning the
  non-NaN argument.  (Where the standard leaves fminf(+0,-0) open the model picks the first
  argument; no property depends on it.)
* `std::regex`, `sscanf("%02x…")`, `std::sort` are modelled by their specification.

## 3. Plan per property

| id | property | how |
|---|---|---|
| C01 | Components never leave the declared range | Invariant by induction over an operation language (`op`), F32 instance, arbitrary oracle. |
| C02 | Hue setters normalise every angle and always terminate | F32: termination/range lemma for the fuelled loop; R: exact characterisation. |
| C03 | Component access by index is checked and local | Generic arithmetic; direct. |
| C04 | Alpha of 8-bit colours stays in 0..255; the alpha setter always clamps | F32; invariant over histories of the 8-bit classes plus the setter law for all classes. |
| C05 | Every freshly constructed colour has alpha in [0,1] | Refuted (F32 witness); the classes for which it holds are covered by C04. |
| C06 | Colour equality is an equivalence that looks at type and components only | F32; relation `color_eq` against a separate spec; uses the no-NaN part of C01. |
| C07 | Adding two colours | F32, pairs of reachable colours. |
| C08 | The sum of two colours is a usable colour of that type | Refuted: the converter run on the sum is `Undef`. |
| C09 | Copy construction preserves a colour | F32, all classes. |
| C10 | Assignment makes the target indistinguishable from the source | Refuted by witness; the exact effect of assignment is proved alongside. |
| C11 | A colour can be recovered from a base reference of its own type | Refuted for four classes (for every colour), proved for the other eleven. |
| C12 | Hex strings decode to the digits they spell | String model (Coq `string`), decode specified independently by digit values. |
| C13 | Every malformed hex string is rejected with an exception | Refuted by witness "12#456". |
| C14 | Integer hex codes decode and agree with hex strings | Z arithmetic with 32-bit two's complement. |
| C15 | Premultiplying by alpha and dividing again | R for the inverse law; F32 for the range law. |
| C16 | alpha_divide keeps components in range | Refuted by witness. |
| C17 | A piecewise gamma curve applies the piece that covers the input | Sortedness + first-match lemma; permutation invariance. |
| C18 | Preset gamma curves and their inverses cancel | R with Rpower; the piecewise presets via exact algebraic comparisons of powers. |
| C19 | The ROMM gamma curve and its inverse cancel | Refuted by a real witness. |
| C20 | Gamma correction is order preserving and maps [0,1] into [0,1] | R, monotonicity of Rpower. |
| C21 | Square matrix algebra | R, lists of rows of any length, sums by induction. |
| C22 | Determinant and inverse of square matrices are correct | R, any size: Laplace expansion, alternation and adjugate identities by induction. |
| C23 | Matrix operations on non-square matrices are defined | Refuted: `Undef` outcome / wrong shape. |
| C24 | White point conversions are consistent | R, field. |
| C25 | White point presets are self-consistent | Refuted by rational computation; the consistent presets are proved consistent. |
| C26 | An RGB colour space definition maps RGB white to its white point | R, symbolic 3x3 with non-zero determinant. |
| C27 | Every preset RGB colour space is non-degenerate | Rational computation per preset, lifted to R. |
| C28 | Conversion yields the requested type, in range | F32: Hoare-style specification of every conversion, composed along routes. |
| C29 | convertTo supports every colour type | Refuted: result is the null pointer for every colour. |
| C30 | Conversion to another type creates a new object; to the same type it returns the same object | F32, part of the same specification. |
| C31 | Conversion does not modify existing colours (all sources but RGB_DEEP) | F32, frame part of the same specification. |
| C32 | Conversion never modifies the colour being converted | Refuted by witness. |
| C33 | Conversion preserves alpha | F32, alpha part of the specification. |
| C34 | Conversion preserves alpha even for black HSL colours | Refuted for every HSL colour of lightness 0 and non-zero alpha. |
| C35 | Conversion preserves the RGB colour space | F32, space part of the specification. |
| C36 | 8-bit RGB to deep RGB and back is lossless | F32, exhaustive kernel computation over the 256 channel values, lifted to all colours. |
| C37 | RGB to CMYK to RGB is the identity | R under the non-black guard; F32 computation for black. |
| C38 | RGB to HSV to RGB is the identity | R, case analysis over hue sectors. |
| C39 | RGB to HSL to RGB is the identity | R, hue sectors. |
| C40 | RGB to HCY to RGB is the identity | R, hue sectors. |
| C41 | RGB to HSI to RGB is the identity | Refuted by witness in R; partial positive result when one channel is 0. |
| C42 | Hues close to 360 degrees survive an RGB/HSV round trip | Refuted by witness in R. |
| C43 | Direct HSV to HSL conversion agrees with the route through RGB | R. |
| C44 | Direct HSL to HSV conversion agrees with the route through RGB | Refuted by witness in R. |
| C45 | XYZ and xyY convert back and forth | R. |
| C46 | XYZ and Lab convert back and forth | R, two-piece curve inverse. |
| C47 | XYZ and CIELUV convert back and forth | Refuted in R. |
| C48 | Lab and LCh(ab) convert back and forth | Refuted in R. |
| C49 | Greys survive conversion | R. |
| C50 | RGB and XYZ convert back and forth | R, using C26-style inverse matrices and a gamma pair hypothesis. |
| C51 | Weights of add/mix/subtract are validated | F32. |
| C52 | Documented weight 0 is accepted by mix and subtract | Refuted. |
| C53 | Calculation results have the type of the first operand and stay in range | F32, from constructor ranges and the converter specification. |
| C54 | add/mix/subtract support every colour type | Refuted. |
| C55 | Mixing a colour with itself gives that colour | R. |
| C56 | Averages are means | R, induction over the list; permutation invariance. |
| C57 | The average CMYK alpha is the mean alpha | Refuted. |
| C58 | include_alpha is honoured by subtract | Refuted. |
| C59 | Blending validates its arguments | F32. |
| C60 | Porter-Duff operators compute the Porter-Duff coverage and colour | R, against an independent table of classical Porter-Duff factors. |
| C61 | Porter-Duff results are in range | F32, monotonicity of rounding. |
| C62 | Porter-Duff dual operators mirror each other | R. |
| C63 | Blend modes of opaque colours apply the blend function | F32/R. |
| C64 | Blend functions obey the laws of their standard definition | R. |
| C65 | Color burn and soft light follow their standard definition | Refuted in R. |
| C66 | Blend results are in range | Refuted by F32 witness. |
| C67 | HCY blend modes validate their arguments like the others | Refuted (`Undef`). |
| C68 | Adapting to the current white point is the identity | F32. |
| C69 | Adaptation maps the source white to the target white | R, matrix error bounds by rational arithmetic. |
| C70 | Adaptation does not touch the original RGB space | F32/R. |
| C71 | Full Bradford adaptation works for every colour type | Refuted (`Undef` for every grey). |
| C72 | Euclidean and CIE76 distances are metrics on distinct converted colours | R, Minkowski inequality in three dimensions. |
| C73 | Delta E 94 is symmetric | Refuted in R. |
| C74 | euclidean_distance honours the requested calculation space | Refuted. |
| C75 | Measuring a distance does not modify the colours | Refuted. |
| C76 | Colour combinations have the requested size and start from the input | F32 for shape, R for hues. |
| C77 | Negative combination sizes are rejected | Refuted. |
| C78 | Combinations preserve alpha | Refuted. |
| C79 | Analogous and monochromatic schemes have the documented shape | F32. |
| C80 | Adjusting by zero percent does not change the colour | F32/R. |
| C81 | RGB adjustments follow their formula and saturate | R. |
| C82 | The pointer variants of the HSL adjustments leave the input unchanged | Refuted. |
| C83 | Adjustments are defined for every colour type | Refuted. |
| C84 | Setting a component by index keeps its documented range | Refuted by witness. |
| C85 | Constructors and named setters store the saturated argument | F32. |
| C86 | Every preset gamma curve is order preserving | Refuted by rational comparison of integer powers. |
| C87 | Without include_alpha the alpha of the first operand is kept | F32, exactness of alpha through conversion. |
| C88 | NaN weights are rejected | Refuted. |
| C89 | The alpha of a calculated colour stays in range | Refuted by witness. |
| C90 | Normal blending is the Porter-Duff operator its documentation names | Equality of programs; refuted by witness in one case. |
| C91 | Vivid light follows its standard definition | Refuted by witness. |
| C92 | Blending returns a colour for every source type | Refuted for all LCh sources. |
| C93 | Blend modes weight source, destination and common area | R. |
| C94 | The HCY blend modes recombine hue, chroma and luma | F32. |
| C95 | Adjustments return a colour of the argument's type | F32. |
| C96 | HSL adjustments keep the alpha | Refuted by F32 witness. |
| C97 | HSL adjustments scale saturation or lightness | R. |
| C98 | Monochromatic schemes of HSL colours are geometric | R, induction over the loop with an invariant on the last colour. |
| C99 | Colour schemes are defined for every colour type | Refuted for all LCh colours. |
| C100 | Complementary splits have the documented shape | F32. |
| C101 | The weighted distance stays close to the Euclidean one | R. |
| C102 | Delta E 94 is the published formula and separates colours | R. |
| C103 | Distances of equal colours are 0 | R. |
| C104 | Distance functions never fail | F32, every library oracle. |
| C105 | Delta E 2000 is symmetric | R. |
| C106 | Delta E 2000 is the published formula | Refuted in R. |
| C107 | Lab distances are never NaN | Refuted by F32 witnesses. |
| C108 | CMC l:c is the published formula | R. |
| C109 | CMC l:c is symmetric | Refuted in R. |
| C110 | Adaptation returns a colour for every type | Refuted, all LCh colours. |
| C111 | Adaptation leaves the input colour unchanged | Refuted by witness. |
| C112 | Adaptation keeps alpha | F32. |
| C113 | The simplified adaptations are the linear von Kries transform | R. |
| C114 | Adapting to a white point of the same value changes nothing | R. |
| C115 | Partial adaptation interpolates between the white points | R. |
| C116 | Full Bradford maps white to white | R. |
| C117 | Adaptation keeps black | Refuted in F32. |
| C118 | A null target white point is handled | Refuted (`Undef`). |
| C119 | CMCCAT2000 works for a dark surround | Refuted in F32. |
| C120 | Matrix element access is bounds checked | Refuted (`Undef`); int indices. |
| C121 | Sums, differences and scalar operations work on every shape | Generic arithmetic, lists of rows. |
| C122 | Resizing keeps the common part | Generic. |
| C123 | Matrix equality, assignment, copying and compound operators | Generic; R and F32 equality separately. |
| C124 | Every named colour is available in every offered type | F32, from the converter specification. |
| C125 | Factory getters return independent objects | Refuted, every heap. |
| C126 | Named colours are distinct | Kernel computation over the table. |
| C127 | Pieces can be removed from a gamma curve | Refuted (`Undef`). |
| C128 | A gamma curve is not affected by later changes of its pieces or copies | Model with piece store (`GammaPtr.v`); refuted by witness; simulation lemma. |
| C129 | Null pieces of a gamma curve are skipped | Refuted (`Undef`). |
| C130 | Equal gamma curves compare equal | Refuted. |
| C131 | The default RGB space converts colours | Refuted, all colours. |
| C132 | Degenerate primaries are rejected | Refuted in R. |
| C133 | White point equality is equality of values | R and F32. |
| C134 | Programs that follow a static discipline never misbehave | Type soundness of a small client language (`Client.v`) by induction on the program, one simulation lemma per call; F32, every oracle. |
| C135 | Only the announced objects change | Frame property of the same induction; aliases allowed. |
| C136 | RGB converts to HSV, HSL, HSI, HCY and CMYK by the published formulas | R, against `Spec_Formula.v` (textbook formulas, independent of the model). |
| C137 | HSV, HSL, HCY and CMYK convert to RGB by the published formulas | R, as C136. |
| C138 | HSI converts to RGB by the published formula | Refuted in R. |
| C139 | Grey is the mean of the channels and bytes are the nearest ones | R; the conversions of grey types in `Grey_Proofs.v`. |
| C140 | LCh holds chroma and hue angle in degrees | Refuted in R; correctness of atan2 (`Polar_Proofs.v`). |
| C141 | LCh converts to Lab and CIELUV by the polar formulas | R. |
| C142 | XYZ and Lab convert by the CIE formulas | R. |
| C143 | XYZ converts to CIELUV by the CIE formula | Refuted in R. |
| C144 | CIELUV converts to XYZ by the CIE formula | R, field. |
| C145 | Sums and differences are componentwise and cut to the range | R (sums), binary32 (conversions around them). |
| C146 | HSV colours are combined on the hue circle | R, polar coordinates. |
| C147 | The average of two colours is their equal mixture | Refuted in R. |
| C148 | Dissolve favours the more opaque colour | Refuted in R. |
| C149 | Rounding errors of RGB round trips are below 2^-17 | Binary32; forward error analysis (`Error*_Proofs.v`) of every operation, exact fmod, continuity of the hue functions across the wrap. |
| C150 | Every 8-bit RGB colour survives CMYK | Binary32, from C149. |
| C151 | 8-bit RGB colours outside a thin wedge survive HSV, HSL and HCY | Binary32, from C149. |
| C152 | Every 8-bit RGB colour survives HSV and HSL | Refuted in binary32. |
| C153 | The XYZ matrices of the presets are inverse up to 26 units in the last place | Binary32; error bound computed in Q (`Linear*_Proofs.v`) from the float matrices by vm_compute, proved sound in R. |
| C154 | 8-bit RGB colours survive XYZ | Binary32; C153 followed by an error analysis of the gamma curves (`Pow_Proofs.v`, `Curve_Proofs.v`, `Xyz8_Proofs.v`) with an assumption on powf. |
| C155 | 8-bit RGB colours of every preset survive XYZ | Refuted in binary32 (`Xyz8_Proofs.v`, `CieRgb_Proofs.v`). |
| C156 | A conversion leaves only its result behind | Refuted; exact counts by a compositional count of allocations (`Leak_Proofs.v`). |
| C157 | Every 8-bit sRGB colour survives xyY | Binary32; relative error analysis of the chromaticities (`Xyy8_Proofs.v`), then the matrices and curve as in C154 with a wider margin (`Wide_Proofs.v`, `Detour*_Proofs.v`). |
| C158 | Every 8-bit sRGB colour survives Lab | Binary32; error analysis of the Lab curve and its inverse (`Lab8_Proofs.v`), then as C157. |
| C159 | Blending opaque 8-bit colours gives the nearest bytes | Binary32; per-mode error bounds against the denominators of the exact values (`Byte_Proofs.v`), complementary bytes of hard mix by computation; runs in `Byte2_Proofs.v`. |
| C160 | Porter-Duff operators keep opaque 8-bit colours exactly | As C159. |
| C161 | 8-bit colours hold whole numbers | Refuted; `Whole_Proofs.v`, `Byte3_Proofs.v`. |
| C162 | Converting to 8-bit RGB yields whole bytes | Composition over the conversion chains, last step rounds (`Whole_Proofs.v`). |
| C163 | 8-bit colours of every preset RGB space survive Lab | Refuted; interval arithmetic on the explicit route (`Gamut_Proofs.v`, `Gamut2_Proofs.v`). |
| C164 | Blending translucent 8-bit colours is accurate | Binary32; relative errors of the weights (a product of two fractions is 0 or at least 1/65025), absolute error of the mode (C159), quotient by the computed coverage (`Veil_Proofs.v`, `Veil2_Proofs.v`); alpha as in C159; runs in `Veil3_Proofs.v`, `Veil4_Proofs.v`. |
| C165 | Porter-Duff operators on translucent 8-bit colours are accurate | As C164. |
| C166 | Averages of 8-bit colours are exact up to one rounding | Binary32; loop invariant: sums of bytes below 2^24 are exact, one rounding in the quotient, which cannot reach a whole number because 1/n exceeds the rounding error (`Mean_Proofs.v`). |
| C167 | The average of equal 8-bit colours is that colour | As C166; the 65795-fold sum is the exact sum of 65793 plus two computed additions. |
| C168 | Euclidean distances of 8-bit colours are accurate in binary32 | Follow the roundings of euclidean_distance on bytes/255: each difference is off by 3.3 u, each square by a relative 17 u, the sum by 20 u, the root by 26 u in all (Rank_Proofs.v). powf is an oracle that squares accurately. |
| C169 | Distances of 8-bit colours are ranked correctly | Squared byte distances are multiples of 1/65025, so different distances are at least 70 u apart; with C168 the computed ones are ordered. |
| C170 | Distances of 8-bit colours are symmetric to the last bit | IEEE subtraction is antisymmetric up to the sign of zero; an even square removes the sign; the sums are then the same. |
| C171 | CIE76 tells all 8-bit sRGB colours apart | Binary32; two colours with close Lab coordinates have close tristimulus values (the inverse Lab curve has slope at most 3), hence a common point from which the way back of C158 reaches both byte triples (`Sep_Proofs.v`). |
| C172 | Brighter 8-bit sRGB colours have larger XYZ values and lightness | Binary32; one byte step raises the linear channel by at least 4000 u, the matrix rows by at least 280 u, more than the rounding; the Lab curve has slope at least 1/3.001 below white (`Mono_Proofs.v`). |
| C173 | The optimised HSL conversion agrees with the version it replaced | R; both are the hexagon formula of C137, by cases over the sextants (`Helpers.v`, `Helpers_Proofs.v`). |
| C174 | round_float_to_n_decimals rounds to the nearest decimal | Refuted: R for negative numbers, F32 witnesses next to 1/2 and beyond int; R for the others. |
| C175 | clamp_float and transform_range do what their names say | F32 case analysis for the clamp and the empty range, field for the affine map. |
| C176 | Delta E 2000 never fails | Binary32; bounds on every intermediate float up to the casts (`Tame_Proofs.v`). |
| C177 | The weighted distance of 8-bit colours is accurate and symmetric in binary32 | Binary32; relative errors of the scaled differences, weights and squares, triangle inequality of the weighted norm (`Weight_Proofs.v`). |
| C178 | Sums, mixtures and differences are accurate in binary32 | Binary32; relative errors of weights and squares, root of close non-negative numbers, clamps do not enlarge errors (`Mix_Proofs.v`). |
| C179 | With weight 1, whole bytes are added and subtracted exactly and saturate | Binary32; products with 1 and sums of bytes are not rounded (`Mix_Proofs.v`). |
| C180 | Schemes of two, three and six colours exchange and mirror RGB channels | R; a colour is a point of the hexagon of C137, a turn moves it by one sextant (`Turn_Proofs.v`). |
| C181 | Schemes of 8-bit colours are exact in binary32 | Binary32; hues of bytes are whole multiples of 60 degrees (computed exactly) or at least 60/255 away from them, so wrapping is right; channels within 2600 u of the exact ones are rounded to the right byte (`Turn2_Proofs.v`, `Turn3_Proofs.v`). |
| C182 | Converting in two steps along a route gives what converting directly gives | Generic over the arithmetic: case analysis over the triples of types; the first step succeeds (C28), the rest is the same code (`Route_Proofs.v`). |
| C183 | Presets have the published values | Exact arithmetic; tables in Spec_Preset.v against the constants, linear arithmetic (`Preset_Proofs.v`). |
| C184 | Preset gamma curves are the published transfer functions | Published functions in Spec_Preset.v; the curves evaluated as in C18; refutations by the linear parts and x^0.8 < 1/16. |
| C185 | RGB, XYZ and xyY convert by the matrix and chromaticity formulas, with clipping | The runs of the two conversions with matrices written out (`Neutral_Proofs.v`). |
| C186 | Greys have no colour in any type | M (1,1,1) = white and linearity, then C142 along the route of C182; C136 at r = g = b. |
| C187 | Over and in may be grouped at will | Composites again yield deep colours in range, so two runs can be chained; products with alpha compared by ring (`Assoc_Proofs.v`); witnesses for the other five. |
| C188 | Exchanging the two layers of a symmetric blend changes nothing, to the last bit | One lemma for every arithmetic with commutative sum and product (`Mirror_Proofs.v`); these laws hold for all floats, NaN included. |
| C189 | Hard mix treats the layers alike in binary32 | Refuted in binary32 by computation. |
| C190 | Delta E 94 never exceeds Delta E 76 | The radicands compared term by term; deterministic conversions give both functions the same Lab values. |
| C191 | Adaptations can be chained and undone | Norms of the matrices and of M Inv - I by linear arithmetic; diagonal gains bounded by k. |
| C192 | The blend modes are ordered from dark to bright | The common blend frame is monotone in the blended term (rounding, sum and clamp are monotone), so pairs of modes are compared at function level (`Order_Proofs.v` to `Order3_Proofs.v`). |
| C193 | The whole order of the blend modes also holds in binary32 | Refuted in binary32 by computation. |
| C194 | Brighter layers give brighter blends | As C192, with monotonicity of each function in both arguments. |
| C195 | Laws of determinant and inverse | A multilinear alternating function of the rows is a multiple of the determinant (`Det2_Proofs.v`); applied to A -> det(AB) (`Det3_Proofs.v`). |
| C196 | Greys in binary32 | Products with a zero and differences with a zero are exact, so the rounding of the hue does not matter (`Grey32_Proofs.v`). |
| C197 | Deep greys survive a trip through RGB in binary32 | Refuted by computation; the bound by the error lemmas of C149. |
| C198 | Accuracy of the RGB adjustments in binary32 | Error lemmas of C149 for the formulas of color_adjustments.cpp (`Adjust32_Proofs.v`, `Adjust33_Proofs.v`). |
| C199 | Taking the saturation away leaves a grey in binary32 | HSL with saturation 0 gives one value three times (C196); rounding to bytes depends on the value only (`Adjust34_Proofs.v`). |
| C200 | Desaturated 8-bit colours are always grey | Refuted by computation of the three channels for a luma of 14.5. |
| C201 | Predefined colours are the CSS named colours | The table of the model is compared with an independently written table of CSS colours (`Spec_Css.v`) by computation. |
| C202 | How many objects each operation leaves behind | Every run is inverted into its steps; each conversion is counted by the lemma of C156 (`Leak2_Proofs.v`). |
| C203 | Exchanging the two colours of a sum or mixture changes nothing | One lemma gives the components of a sum in any arithmetic; addition is commutative in both, and 1 - (1 - w) = w by Sterbenz for w >= 1/2 (`Law_Proofs.v`, `Law2_Proofs.v`). |
| C204 | Larger components give larger sums and mixtures | Rounding, square root and cutting are monotone (`Law2_Proofs.v`). |
| C205 | Computed distances of arbitrary colours are accurate, symmetric and nearly satisfy the triangle inequality | The difference of two stored numbers has a relative error of 2^-24 only; squares of the differences, their sums and the root keep relative errors (`Metric_Proofs.v`). |
| C206 | Premultiplying by alpha and dividing again in binary32 | One rounding each; see `Alpha2_Proofs.v`. |
| C207 | Premultiplying by alpha and dividing again keeps the components in range | False: 100 * fl(1/3) / fl(1/3) rounds to 100 + 2^-17. |
| C208 | RGB to HSV, HSL, HSI, HCY and CMYK in single precision | Spec_Channels.v (channels), Oneway_Proofs.v, Oneway2_Proofs.v, Props_Oneway.v: one-way accuracy of the conversions between deep RGB and HSV, HSL, HSI, HCY, CMYK in binary32 (C208, C209), against the formulas of Spec_Formula.v. |
| C209 | HSV, HSL, HCY and CMYK to RGB in single precision | Same files; the unit hexagon of `HueR_Proofs.v` and the helper bounds of Error3 to Error6 give the channel errors. |
| C210 | Porter-Duff operators on deep colours are accurate in binary32 | `Spec_Film.v` (contributes), `Film_Proofs.v`: no component exceeds the computed alpha (C61), so the quotient is in [0,1] and errors are absolute in the premultiplied colour. |
| C211 | Continuous blend modes on deep colours are accurate in binary32 | Same files; one error bound per mode. Modes with jumps (hard mix) or values outside [0,1] are not listed. |
| C212 | Hue colours close to one another have close RGB colours | Spec_Near.v (arc, close_by, close32), Stable_Proofs.v, Props_Stable.v: Lipschitz bounds of the conversions from HSV, HSL, HCY and CMYK to deep RGB (C212). |
| C213 | Averages of colours are accurate in binary32 | Spec_Mean.v (magnitude, mean_error, mean_of), Mean2_Proofs.v, Mean3_Proofs.v, Props_Mean2.v: accuracy of the averages of the deep types in binary32 (C213). |
| C214 | The order of averaged colours matters only in the last places | Mean4_Proofs.v, Props_Mean2.v: order of averaged colours (C214). |
| C215 | Adjustments in HSL spread the RGB channels around their middle | Spec_Stretch.v (middle, stretch, stretched), Stretch_Proofs.v, Props_Stretch.v: adjustments in HSL seen from RGB (C215). |
| C216 | Adjustments in HSL are accurate in binary32 | Stretch2_Proofs.v: the same in binary32 (C216). |
| C217 | XYZ to Lab is accurate in binary32 | Spec_Lab.v (white_value, below_white), Lab9_Proofs.v, Props_Lab2.v: accuracy of XYZ to Lab in binary32 for all colours up to white (C217). |
| C218 | XYZ to Lab and back is accurate in binary32 | Lab10_Proofs.v: XYZ to Lab and back in binary32 (C218). |
| C219 | XYZ to xyY and back is accurate in binary32 | Xyy_Proofs.v, Xyy2_Proofs.v, Props_Xyy.v: XYZ to xyY and back in binary32 (C219) and without luminance (C220). Unused_Proofs.v, Props_Rest.v: setters and copies of gamma curves, named combinations (C17, C76, C128, C129). |
| C220 | XYZ colours survive the way through xyY | Refuted, with C219. |
| C221 | Generic add, mix and subtract are the overload of the first operand's type | Generic_Proofs.v, Props_Generic.v: case analysis on the type (C221). Added because swapping the operands in one case of subtract broke only theorems about types and alpha. |
| C222 | convertTo is the converter of its target type | Generic_Proofs.v: by cases (C222). C28 only states the type of the result. |
| C223 | Adjustments on references store what those on pointers return | Place_Proofs.v, Props_Place.v: F32, by cases on adjustment and type (C223). C83 does not say which colour is stored. |
| C224 | Blending colours of any types is blending their deep RGB conversions | Through_Proofs.v, Props_Through.v: F32 through the generic laws (C224). C59 only states the type of the result. |
| C225 | Colours of any type are adapted through XYZ | AdaptVia_Proofs.v, Props_AdaptVia.v: F32 and RArith through the generic laws (C225). Extends the values of C69, C114 and C115 to all convertible types. |
| C226 | HCY blending and adjustments of any types work on the HCY, HSL or deep RGB conversion | Through2_Proofs.v, Props_Through2.v: F32 and RArith through the generic laws (C226, C227). Carry the values of C94, C97, C106 and C108 over to all types. |
| C227 | Distances of any types are distances of the converted colours | See C226. |
| C228 | Monochromatic schemes of any type are made step by step in HSL | Scheme2_Proofs.v, Props_Scheme2.v: RArith, structure through the generic laws (C228). |
| C229 | Complementary splits lie on both sides of the complement | Scheme2_Proofs.v, Props_Scheme2.v: RArith (C229). |
| C230 | The complement of the complement is the colour itself | Twice_Proofs.v, Props_Twice.v: RArith (C230). |
| C231 | The colours of a combination are distinct | Distinct_Proofs.v, Props_Distinct.v: RArith (C231). |
| C232 | A colour space with a replaced white point or gamma curve is the space built with it | Setters_Proofs.v, Props_Setters.v: all arithmetics, F32 and RArith (C232). |
| C233 | The average of two hues lies between them on the hue circle | HueMean_Proofs.v, Props_HueMean.v: RArith (C233). |
| C234 | Premultiplying by alpha darkens a colour and keeps its hue | Premul_Proofs.v, Props_Premul.v: RArith (C234). |
| C235 | An average lies between the averaged colours | Hull_Proofs.v, Props_Hull.v: RArith and F32 (C235); the rounding of C166 is monotone and keeps bytes. |
| C236 | Averages of equally large groups can be averaged again | Regroup_Proofs.v, Props_Regroup.v: RArith (C236). |
| C237 | Larger components give a larger average | AvgOrder_Proofs.v, Props_AvgOrder.v: RArith and F32 (C237). |

## How to read seeded/LOG.jsonl

Each line is one edit of the model in a scratch copy, rebuilt by a script.

- `claim` is what was named before the run, not what turned out to fail. Early edits named a theme or a wrong property number; such lines carry a note.
- `lemmas_broken` are the lemmas whose proof scripts no longer compile. The script admits them and goes on.
- `theorems_failed` are the theorems that rest on a broken lemma, found with `Print Assumptions`. This is a dependency, not a refutation: a theorem can be listed although its statement is still true of the edited program, when it shares a lemma with the part that was edited.
- A run stops at the first property file with a failure, so the list is not complete.
- A compile time above 300 s counts as a broken lemma. Known cases were taken out by hand.
- Until 16 November, 20:30 UTC, `claim` was replaced by the property of a failed theorem when the named one was not among them. This made collateral failures look like direct ones. The lines were regenerated from the raw results; the edits concerned were queued again with the property fixed in advance (marked "rerun with fixed target").
