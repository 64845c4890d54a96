{"id": "C01", "title": "Components never leave the declared range", "statement": "A colour of any of the 15 classes, however it was constructed and whatever sequence of named component setters, set_component(v,i) calls (for Lab and CIELUV only on components 1 and 2, see C84), alpha setters, operator=, copy construction and gamma corrections (except for Lab and CIELUV) was applied to it, has the fixed number of components of its class, and every component is a finite, non-NaN number inside the range documented for that component (e.g. 0..255 for rgb_truecolor, 0..359 for a hue, -128..128 for Lab a/b), even when callers pass NaN or infinities.", "quantifier": "all classes, all binary32 arguments including NaN, infinities, signed zeros and subnormals, all finite histories of constructor/setter/assignment/gamma operations, all powf implementations", "why_tests_cant": "The inputs are all 2^32 floats per argument and unbounded operation histories; NaN handling of fminf/fmaxf is exactly the kind of case example tests skip.", "anchors": ["ColorMagic/spaces/color_base.h: set_component, clamp, color_base", "ColorMagic/spaces/*.cpp: constructors and setters"]}
{"id": "C02", "title": "Hue setters normalise every angle and always terminate", "statement": "Setting the hue of an HSV, HSL, HSI or HCY colour terminates for every float, stores a value in [0,359], and in exact arithmetic the stored value is the angle modulo 360, saturated to 359 when the remainder lies above 359.", "quantifier": "all binary32 angles including NaN and infinities (termination, range); all real angles (exact value)", "why_tests_cant": "Termination of the while(hue<0) loop and wrap-around must hold for every float, including values where adding 360 is lost to rounding.", "anchors": ["ColorMagic/spaces/hsv.cpp: hue", "ColorMagic/spaces/hsl.cpp: hue", "ColorMagic/spaces/hsi.cpp: hue", "ColorMagic/spaces/hcy.cpp: hue"]}
{"id": "C03", "title": "Component access by index is checked and local", "statement": "get_component(i)/set_component(v,i) throws std::out_of_range exactly when i is negative or not smaller than the number of components, and then the colour is unchanged; a successful set_component changes only component i, and get_component(i) afterwards returns the clamped value.", "quantifier": "all colours, all int indices, all values", "why_tests_cant": "Index and value spaces are unbounded; tests probe a few indices.", "anchors": ["ColorMagic/spaces/color_base.h: get_component, set_component"]}
{"id": "C04", "title": "Alpha of 8-bit colours stays in 0..255; the alpha setter always clamps", "statement": "The alpha of rgb_truecolor and grey_truecolor objects read through alpha() is in [0,255] and not NaN after any construction and any setter history; for every class alpha(x) followed by alpha() returns a value in [0,1] ([0,255] for the 8-bit classes).", "quantifier": "all binary32 alphas including NaN and infinities, all histories", "why_tests_cant": "Needs every float and every history, including the rescaling by 255.", "anchors": ["ColorMagic/spaces/color_base.h: alpha", "ColorMagic/spaces/rgb_truecolor.cpp: alpha", "ColorMagic/spaces/grey_truecolor.cpp: alpha"]}
{"id": "C05", "title": "Every freshly constructed colour has alpha in [0,1]", "statement": "For every class and every constructor argument the alpha of a freshly constructed colour lies in the documented range [0,1] ([0,255] for the 8-bit classes).", "quantifier": "all classes and all float constructor arguments", "why_tests_cant": "Tests construct colours with alpha 1 only; the statement is about all arguments (it is false for 13 of the 15 classes: the base constructor stores alpha unclamped).", "anchors": ["ColorMagic/spaces/color_base.h: color_base(float alpha,...)"]}
{"id": "C06", "title": "Colour equality is an equivalence that looks at type and components only", "statement": "operator== on colours is reflexive, symmetric and transitive on every reachable colour, operator!= is its negation, colours of different types are never equal, and two colours are equal exactly when type and all components agree numerically, independent of alpha and of the RGB colour space.", "quantifier": "all triples of reachable colours", "why_tests_cant": "Quantifies over all triples; reflexivity fails for NaN so it depends on the range invariant for every history.", "anchors": ["ColorMagic/spaces/color_base.h: operator==, operator!="]}
{"id": "C07", "title": "Adding two colours", "statement": "a + b throws std::invalid_argument exactly when the types (or component counts) differ; otherwise the result has the type, alpha and RGB space of a and each component is the sum saturated to a's component range; a + b and b + a have equal components when both have the same limits.", "quantifier": "all pairs of reachable colours, binary32 arithmetic", "why_tests_cant": "All pairs of float component vectors and all pairs of types.", "anchors": ["ColorMagic/spaces/color_base.h: operator+"]}
{"id": "C08", "title": "The sum of two colours is a usable colour of that type", "statement": "The object returned by a + b reports a's type and can be passed (by address) to the converter like any other colour of that type.", "quantifier": "all pairs of colours of equal type", "why_tests_cant": "A plain color_base object is statically cast to the derived class: undefined behaviour that need not crash in a test.", "anchors": ["ColorMagic/spaces/color_base.h: operator+", "ColorMagic/manipulation/color_converter.cpp: to_rgb_deep"]}
{"id": "C09", "title": "Copy construction preserves a colour", "statement": "Copy-constructing a colour yields a colour of the same class with the same type, components, limits and RGB space, and with the same alpha whenever the alpha of the source is in range.", "quantifier": "all reachable colours of all 15 classes", "why_tests_cant": "All classes and all contents (the cieluv copy constructor even starts from a 4-component base).", "anchors": ["ColorMagic/spaces/*.cpp: copy constructors"]}
{"id": "C10", "title": "Assignment makes the target indistinguishable from the source", "statement": "After x = y (same class) x has y's type, components, limits, alpha and RGB colour space.", "quantifier": "all pairs of colours of the same class", "why_tests_cant": "Every test assigns colours with identical alpha and space; the statement is about all pairs (it is false: alpha and space are not assigned).", "anchors": ["ColorMagic/spaces/rgb_deepcolor.cpp: operator=", "ColorMagic/spaces/*.cpp: operator="]}
{"id": "C11", "title": "A colour can be recovered from a base reference of its own type", "statement": "Constructing a derived colour from a color_base reference succeeds exactly when the referenced colour has that type, and then yields the same components, alpha and space.", "quantifier": "all classes and all reachable colours", "why_tests_cant": "The guard compares a component count that no colour of the class has; tests would have to try all 15 classes (it is false for rgb_truecolor, rgb_deepcolor, grey_truecolor and cieluv).", "anchors": ["ColorMagic/spaces/rgb_truecolor.cpp", "ColorMagic/spaces/rgb_deepcolor.cpp", "ColorMagic/spaces/grey_truecolor.cpp", "ColorMagic/spaces/cieluv.cpp", "ColorMagic/spaces/*.cpp: X(const color_base&)"]}
{"id": "C12", "title": "Hex strings decode to the digits they spell", "statement": "For every string consisting of an optional leading '#' followed by six hex digits RRGGBB (or eight, AARRGGBB), constructing an rgb_truecolor yields exactly these channel values (alpha 255 when absent); every string containing another character, or of another length without '#', is rejected with std::invalid_argument.", "quantifier": "all strings of any length over all characters", "why_tests_cant": "The input space is all strings.", "anchors": ["ColorMagic/spaces/rgb_truecolor.cpp: rgb_truecolor(std::string, ...)"]}
{"id": "C13", "title": "Every malformed hex string is rejected with an exception", "statement": "No string that is not a well-formed hex code reaches undefined behaviour: it is rejected by std::invalid_argument.", "quantifier": "all strings", "why_tests_cant": "Only specific malformed shapes ('#' inside the digits) slip through the regular expression and make sscanf leave variables uninitialised.", "anchors": ["ColorMagic/spaces/rgb_truecolor.cpp: rgb_truecolor(std::string, ...)"]}
{"id": "C14", "title": "Integer hex codes decode and agree with hex strings", "statement": "Constructing an rgb_truecolor from the 32-bit integer 0xAARRGGBB yields channels AA,RR,GG,BB for every 32-bit value (also negative ints), re-encoding the channels gives back the integer, and the result equals the colour built from the corresponding 8-digit hex string. In particular each predefined colour has the channels of its code and is opaque, except Transparent, whose alpha is 0.", "quantifier": "all 32-bit integers", "why_tests_cant": "2^32 inputs, sign handling of >> on negative ints.", "anchors": ["ColorMagic/spaces/rgb_truecolor.cpp: rgb_truecolor(int, ...)", "ColorMagic/utils/colors.h: HexcodeColors, predefined_color"]}
{"id": "C15", "title": "Premultiplying by alpha and dividing again", "statement": "alpha_multiply followed by alpha_divide restores the components in exact arithmetic whenever alpha is not 0, with alpha 0 alpha_divide changes nothing, and neither touches alpha, type or limits; alpha_multiply keeps components of [0,max]-ranged colours in range for alpha in [0,1].", "quantifier": "all colours with real components; all binary32 colours for the range part", "why_tests_cant": "All component/alpha combinations.", "anchors": ["ColorMagic/spaces/color_base.h: alpha_multiply, alpha_divide"]}
{"id": "C16", "title": "alpha_divide keeps components in range", "statement": "A colour whose components are in range still has all components in range after alpha_divide.", "quantifier": "all reachable colours", "why_tests_cant": "Needs the specific combination component > alpha (it is false: alpha_divide does not clamp).", "anchors": ["ColorMagic/spaces/color_base.h: alpha_divide"]}
{"id": "C17", "title": "A piecewise gamma curve applies the piece that covers the input", "statement": "For a gamma curve built from any collection of pieces with distinct upper borders, in whatever order they were supplied or added, gamma correction of x applies the piece with the smallest upper border not below x, and returns x unchanged when x lies above every border; the same for the inverse curve. The outcome does not depend on the insertion order. Pieces without a function are skipped.", "quantifier": "all finite collections of pieces, all insertion orders, all inputs", "why_tests_cant": "All permutations and sizes of piece lists.", "anchors": ["ColorMagic/spaces/gamma.h: gamma::gamma_correction, inverse_gamma_correction, add_gamma_curve_part, set_gamma_curve_parts"]}
{"id": "C18", "title": "Preset gamma curves and their inverses cancel", "statement": "For each preset gamma (1.8, 2.2, 2.6, 2.8, Adobe RGB, sRGB, UHDTV) inverse_gamma_correction(gamma_correction(x)) = x for x in [0,1] in exact arithmetic, and the same in the other order. For the two piecewise presets the inputs between the break points of the two curves are excepted: for sRGB (0.0031308, 0.0031309) forward and (0.0404499, 0.04045] backward, for UHDTV (0.081, 0.0815) forward and (0.018, 0.018053968510807] backward.", "quantifier": "all real x in [0,1], all presets", "why_tests_cant": "A continuum of inputs.", "anchors": ["ColorMagic/spaces/gamma.h: gamma_presets"]}
{"id": "C19", "title": "The ROMM gamma curve and its inverse cancel", "statement": "For the ROMM preset inverse_gamma_correction(gamma_correction(x)) = x for all x in [0,1].", "quantifier": "all real x in [0,1]", "why_tests_cant": "Fails only on the interval where the wrong inverse border is used.", "anchors": ["ColorMagic/spaces/gamma.h: gamma_presets::Romm"]}
{"id": "C20", "title": "Gamma correction is order preserving and maps [0,1] into [0,1]", "statement": "For the power-law presets gamma correction and its inverse are monotone and map [0,1] onto [0,1] fixing 0 and 1.", "quantifier": "all real pairs x<=y in [0,1]", "why_tests_cant": "A continuum of pairs.", "anchors": ["ColorMagic/spaces/gamma.h: gamma_presets"]}
{"id": "C21", "title": "Square matrix algebra", "statement": "For square matrices of any size over exact arithmetic: the identity is neutral for multiplication, multiplication is associative, transposition is an involution and reverses products, addition is commutative and associative, subtraction inverts addition, and multiplying by a vector agrees with multiplying by the product.", "quantifier": "all square matrices of any dimension with real entries", "why_tests_cant": "All sizes and entries.", "anchors": ["ColorMagic/utils/matrix.h: operator*, operator+, operator-, transpose, create_identity"]}
{"id": "C22", "title": "Determinant and inverse of square matrices are correct", "statement": "For every square matrix of any size over exact arithmetic determinante() returns the determinant (Laplace expansion, along any row or column; for 3x3 the rule of Sarrus); the zero-row/column and equal-row/column shortcuts never change the value, invert() of a matrix with non-zero determinant is a two-sided inverse, and invert() of a singular matrix returns the matrix unchanged.", "quantifier": "all n x n real matrices, n >= 1", "why_tests_cant": "A nine-dimensional continuum plus shortcut branches.", "anchors": ["ColorMagic/utils/matrix.h: determinante, adjoint, invert"]}
{"id": "C23", "title": "Matrix operations on non-square matrices are defined", "statement": "transpose(), matrix*matrix and construction from a value list work (without undefined behaviour) for every rectangular matrix of compatible shape.", "quantifier": "all shapes", "why_tests_cant": "The tests only use square shapes; out-of-bounds accesses need not crash (the statement is false).", "anchors": ["ColorMagic/utils/matrix.h: insert, transpose, operator*"]}
{"id": "C24", "title": "White point conversions are consistent", "statement": "Chromaticity coordinates computed from a tristimulus sum to 1; converting a tristimulus with Y=1 to chromaticity and back returns it; converting chromaticity (with sum 1) to tristimulus and back returns it; a white point built from (x,y) has Y = 1.", "quantifier": "all real tristimulus values with non-zero sum / y", "why_tests_cant": "A continuum of inputs.", "anchors": ["ColorMagic/spaces/white_point.h: tristimulus_to_chromaticity_coordinate, chromaticity_coordinate_to_tristimulus, white_point"]}
{"id": "C25", "title": "White point presets are self-consistent", "statement": "For every preset white point the stored tristimulus and the stored chromaticity coordinates describe the same colour to within 1 percent.", "quantifier": "all presets", "why_tests_cant": "Tests use D50/D65 only (it is false: several presets have X or Z ten times too small).", "anchors": ["ColorMagic/spaces/white_point.h: white_point_presets"]}
{"id": "C26", "title": "An RGB colour space definition maps RGB white to its white point", "statement": "For every choice of primaries and white point with non-degenerate primaries, the RGB to XYZ matrix maps (1,1,1) to the white point's tristimulus, maps each unit primary to a colour with that primary's chromaticity, and the stored inverse matrix is its two-sided inverse; the same holds after set_white_point for the new white point.", "quantifier": "all real primaries and white points with non-zero determinant", "why_tests_cant": "A continuum of definitions; tests check presets only.", "anchors": ["ColorMagic/spaces/rgb_color_space_definition.h: rgb_color_space_definition, calculate_transformation_matrix, set_white_point"]}
{"id": "C27", "title": "Every preset RGB colour space is non-degenerate", "statement": "Each preset RGB colour space has an invertible RGB to XYZ matrix, so the previous property applies to it.", "quantifier": "all presets", "why_tests_cant": "Covers all presets with exact rational arithmetic instead of float tolerance.", "anchors": ["ColorMagic/spaces/rgb_color_space_definition.h: rgb_color_space_presets"]}
{"id": "C28", "title": "Conversion yields the requested type, in range", "statement": "For every colour of each of the 15 types and each target type other than LCH_AB/LCH_UV, convertTo returns a non-null colour of exactly the requested type whose components are all in the target's declared range and not NaN, provided the colour has an RGB colour space with a gamma curve; the 15 to_X functions do so for all 15 targets. No conversion hangs, throws or has undefined behaviour.", "quantifier": "all 15x15 type pairs, all in-range component values, all alphas, all transcendental-function implementations, binary32", "why_tests_cant": "225 routes times all float component values, including the division-by-zero cases (black) that produce NaN internally.", "anchors": ["ColorMagic/manipulation/color_converter.cpp: convertTo, to_*"]}
{"id": "C29", "title": "convertTo supports every colour type", "statement": "convertTo(color, t) returns a non-null colour for every colour and every type t.", "quantifier": "all type pairs", "why_tests_cant": "False for LCH_AB and LCH_UV targets, which return nullptr and crash callers such as the adjustment functions.", "anchors": ["ColorMagic/manipulation/color_converter.cpp: convertTo"]}
{"id": "C30", "title": "Conversion to another type creates a new object; to the same type it returns the same object", "statement": "to_X returns the very same pointer when the colour already has type X, otherwise a freshly allocated object distinct from every existing one.", "quantifier": "all colours, all type pairs", "why_tests_cant": "Aliasing across 225 routes.", "anchors": ["ColorMagic/manipulation/color_converter.cpp: to_*"]}
{"id": "C31", "title": "Conversion does not modify existing colours (all sources but RGB_DEEP)", "statement": "Converting a colour of any type other than RGB_DEEP to any type leaves every previously existing colour object and RGB space definition unchanged; so does converting an RGB_DEEP colour to any of the non-CIE types.", "quantifier": "all colours, all routes, all heaps of pre-existing objects", "why_tests_cant": "Requires ruling out side effects in all routes for all heaps.", "anchors": ["ColorMagic/manipulation/color_converter.cpp"]}
{"id": "C32", "title": "Conversion never modifies the colour being converted", "statement": "to_X(c) leaves c unchanged for every colour and every X.", "quantifier": "all colours and target types", "why_tests_cant": "False: converting an RGB_DEEP colour to XYZ, xyY, Luv, Lab or LCh applies the inverse gamma to the caller's colour in place, so converting twice gives different results.", "anchors": ["ColorMagic/manipulation/color_converter.cpp: rgb_deep_to_xyz"]}
{"id": "C33", "title": "Conversion preserves alpha", "statement": "Converting between any two types preserves alpha (scaled between 0..1 and 0..255, rounded when going to 8 bit) for every colour whose alpha is in range; exception: HSL colours of lightness 0.", "quantifier": "all colours, all routes", "why_tests_cant": "All routes and alphas.", "anchors": ["ColorMagic/manipulation/color_converter.cpp"]}
{"id": "C34", "title": "Conversion preserves alpha even for black HSL colours", "statement": "Converting an HSL colour of lightness 0 keeps its alpha.", "quantifier": "all HSL colours with lightness 0", "why_tests_cant": "Needs the specific black case (it is false: alpha becomes 0).", "anchors": ["ColorMagic/manipulation/color_converter.cpp: hsl_to_rgb_deep"]}
{"id": "C35", "title": "Conversion preserves the RGB colour space", "statement": "The result of every conversion refers to the same RGB colour space definition as its input.", "quantifier": "all colours, all routes", "why_tests_cant": "All routes.", "anchors": ["ColorMagic/manipulation/color_converter.cpp"]}
{"id": "C36", "title": "8-bit RGB to deep RGB and back is lossless", "statement": "Converting an rgb_truecolor with integer channels (and integer alpha) to rgb_deepcolor and back returns exactly the same channels in binary32 arithmetic; the same for grey.", "quantifier": "all integer channel values 0..255 (256^4 colours), real machine arithmetic", "why_tests_cant": "16 million colours times alpha, with two roundings.", "anchors": ["ColorMagic/manipulation/color_converter.cpp: rgb_true_to_rgb_deep, rgb_deep_to_rgb_true"]}
{"id": "C37", "title": "RGB to CMYK to RGB is the identity", "statement": "In exact arithmetic converting a non-black rgb_deepcolor to CMYK and back returns the same components; black converts to a CMYK colour that converts back to black (in machine arithmetic, where the intermediate is 0/0).", "quantifier": "all RGB colours in [0,1]^3", "why_tests_cant": "A continuum, plus the NaN corner case.", "anchors": ["ColorMagic/manipulation/color_converter.cpp: rgb_deep_to_cmyk, cmyk_to_rgb_deep"]}
{"id": "C38", "title": "RGB to HSV to RGB is the identity", "statement": "In exact arithmetic converting an rgb_deepcolor to HSV and back returns the same components whenever its hue does not lie in the open interval (359,360).", "quantifier": "all RGB colours in [0,1]^3 with hue outside (359,360)", "why_tests_cant": "A continuum with six hue sectors.", "anchors": ["ColorMagic/manipulation/color_converter.cpp: rgb_deep_to_hsv, hsv_to_rgb_deep"]}
{"id": "C39", "title": "RGB to HSL to RGB is the identity", "statement": "In exact arithmetic converting an rgb_deepcolor to HSL and back returns the same components whenever its hue does not lie in the open interval (359,360).", "quantifier": "all RGB colours in [0,1]^3 with hue outside (359,360)", "why_tests_cant": "A continuum with six hue sectors and lightness extremes.", "anchors": ["ColorMagic/manipulation/color_converter.cpp: rgb_deep_to_hsl, hsl_to_rgb_deep"]}
{"id": "C40", "title": "RGB to HCY to RGB is the identity", "statement": "In exact arithmetic converting an rgb_deepcolor to HCY and back returns the same components whenever its hue does not lie in the open interval (359,360).", "quantifier": "all RGB colours in [0,1]^3 with hue outside (359,360)", "why_tests_cant": "A continuum with six hue sectors.", "anchors": ["ColorMagic/manipulation/color_converter.cpp: rgb_deep_to_hcy, hcy_to_rgb_deep"]}
{"id": "C41", "title": "RGB to HSI to RGB is the identity", "statement": "In exact arithmetic converting an rgb_deepcolor to HSI and back returns the same components.", "quantifier": "all RGB colours in [0,1]^3", "why_tests_cant": "Holds only for colours with a zero channel; the statement is false in general.", "anchors": ["ColorMagic/manipulation/color_converter.cpp: rgb_deep_to_hsi, hsi_to_rgb_deep"]}
{"id": "C42", "title": "Hues close to 360 degrees survive an RGB/HSV round trip", "statement": "Converting an RGB colour with hue in (359,360) to HSV and back returns the same colour.", "quantifier": "all RGB colours with such hue", "why_tests_cant": "A thin sector tests never hit (false: the hue saturates at 359).", "anchors": ["ColorMagic/spaces/hsv.cpp: hue", "ColorMagic/manipulation/color_converter.cpp"]}
{"id": "C43", "title": "Direct HSV to HSL conversion agrees with the route through RGB", "statement": "In exact arithmetic hsv_to_hsl gives the same RGB colour as the HSV colour itself, for every HSV colour with non-zero value.", "quantifier": "all HSV colours", "why_tests_cant": "A continuum.", "anchors": ["ColorMagic/manipulation/color_converter.cpp: hsv_to_hsl"]}
{"id": "C44", "title": "Direct HSL to HSV conversion agrees with the route through RGB", "statement": "hsl_to_hsv gives an HSV colour that denotes the same RGB colour as the HSL colour.", "quantifier": "all HSL colours", "why_tests_cant": "Operator precedence defect; a wrong value for almost all inputs, but tests check a single colour (it is false).", "anchors": ["ColorMagic/manipulation/color_converter.cpp: hsl_to_hsv"]}
{"id": "C45", "title": "XYZ and xyY convert back and forth", "statement": "In exact arithmetic XYZ to xyY to XYZ is the identity for colours with Y>0, and black maps to a colour with the white point's chromaticity and Y=0 that maps back to black.", "quantifier": "all XYZ colours in range", "why_tests_cant": "A continuum.", "anchors": ["ColorMagic/manipulation/color_converter.cpp: xyz_to_xyy, xyy_to_xyz"]}
{"id": "C46", "title": "XYZ and Lab convert back and forth", "statement": "In exact arithmetic XYZ to Lab to XYZ is the identity whenever no Lab component saturates.", "quantifier": "all XYZ colours whose Lab values are in range, all white points with positive tristimulus", "why_tests_cant": "A continuum and a two-piece curve with a join.", "anchors": ["ColorMagic/manipulation/color_converter.cpp: xyz_to_lab, lab_to_xyz"]}
{"id": "C47", "title": "XYZ and CIELUV convert back and forth", "statement": "XYZ to CIELUV to XYZ is the identity whenever no component saturates.", "quantifier": "all XYZ colours", "why_tests_cant": "False: the forward transform reads X instead of Y and uses a wrong constant.", "anchors": ["ColorMagic/manipulation/color_converter.cpp: xyz_to_cieluv, cieluv_to_xyz"]}
{"id": "C48", "title": "Lab and LCh(ab) convert back and forth", "statement": "Lab to LCh(ab) to Lab is the identity for colours whose chroma and hue are in range.", "quantifier": "all Lab colours", "why_tests_cant": "False: hue is stored in radians but read in degrees and chroma is rescaled one way only.", "anchors": ["ColorMagic/manipulation/color_converter.cpp: lab_to_lch_ab, lch_ab_to_lab"]}
{"id": "C49", "title": "Greys survive conversion", "statement": "In exact arithmetic a grey_deepcolor (or grey_truecolor) converted to RGB and back is unchanged, and an RGB colour with equal channels converted to grey and back is unchanged; converting to grey twice equals converting once.", "quantifier": "all grey values", "why_tests_cant": "A continuum.", "anchors": ["ColorMagic/manipulation/color_converter.cpp: rgb_deep_to_grey_deep, grey_deep_to_rgb_deep"]}
{"id": "C50", "title": "RGB and XYZ convert back and forth", "statement": "In exact arithmetic, for an RGB space whose definition is non-degenerate and whose gamma and inverse gamma cancel on [0,1], converting an rgb_deepcolor to XYZ and back returns the components the caller's colour had before the call, provided the XYZ values do not saturate.", "quantifier": "all RGB colours, all such RGB spaces", "why_tests_cant": "A continuum of colours and colour spaces.", "anchors": ["ColorMagic/manipulation/color_converter.cpp: rgb_deep_to_xyz, xyz_to_rgb_deep"]}
{"id": "C51", "title": "Weights of add/mix/subtract are validated", "statement": "add, mix and subtract throw std::invalid_argument without creating or changing any colour whenever a weight is outside [0,1] (mix/subtract through the generic interface also for weight 0), and do not throw for weights inside.", "quantifier": "all weights and all colours", "why_tests_cant": "All float weights.", "anchors": ["ColorMagic/manipulation/color_calculation.cpp: add, mix, subtract"]}
{"id": "C52", "title": "Documented weight 0 is accepted by mix and subtract", "statement": "mix/subtract accept every weight in the documented range [0,1].", "quantifier": "all weights in [0,1]", "why_tests_cant": "False for the boundary 0 on the generic overload.", "anchors": ["ColorMagic/manipulation/color_calculation.cpp: mix, subtract"]}
{"id": "C53", "title": "Calculation results have the type of the first operand and stay in range", "statement": "For every supported type, add/mix/subtract return a new colour of the first operand's type with all components in range and not NaN, and leave the operands unchanged when they already have that type and are not RGB_DEEP going to a CIE type.", "quantifier": "all pairs of colours, all valid weights, binary32", "why_tests_cant": "All component values including those where the sum overflows the range.", "anchors": ["ColorMagic/manipulation/color_calculation.cpp"]}
{"id": "C54", "title": "add/mix/subtract support every colour type", "statement": "The generic add, mix and subtract return a colour for every type of the first operand.", "quantifier": "all 15 types", "why_tests_cant": "False: HSI and HCY (and xyY, CIELUV for mix/subtract) yield nullptr.", "anchors": ["ColorMagic/manipulation/color_calculation.cpp: add, mix, subtract"]}
{"id": "C55", "title": "Mixing a colour with itself gives that colour", "statement": "In exact arithmetic mix(c,c,w) has the same components as c for RGB, grey, CMYK, XYZ, xyY and CIELUV colours and every valid weight; mix(c,d,1) has the components of c.", "quantifier": "all colours and weights", "why_tests_cant": "A continuum.", "anchors": ["ColorMagic/manipulation/color_calculation.cpp: mix, add"]}
{"id": "C56", "title": "Averages are means", "statement": "average_* throws on an empty list; otherwise in exact arithmetic each component is the arithmetic mean of the inputs' components, the result does not depend on the order of the list, and alpha is the mean alpha with include_alpha and the first colour's alpha without (cmyk excepted with include_alpha).", "quantifier": "all finite non-empty lists of colours", "why_tests_cant": "Lists of any length in any order.", "anchors": ["ColorMagic/manipulation/color_calculation.cpp: average_*"]}
{"id": "C57", "title": "The average CMYK alpha is the mean alpha", "statement": "average_cmyk(colors, true) has the mean of the colours' alphas as alpha.", "quantifier": "all lists of CMYK colours", "why_tests_cant": "False: the alpha sum is computed from the black channel.", "anchors": ["ColorMagic/manipulation/color_calculation.cpp: average_cmyk"]}
{"id": "C58", "title": "include_alpha is honoured by subtract", "statement": "subtract(c,d,w,true) subtracts the weighted alpha for every colour type.", "quantifier": "all types", "why_tests_cant": "False for HSI, HSL, HCY, Lab and LCh, which drop the flag.", "anchors": ["ColorMagic/manipulation/color_calculation.cpp: subtract"]}
{"id": "C59", "title": "Blending validates its arguments", "statement": "Every Porter-Duff operator and every component-wise blend mode throws std::invalid_argument, changing nothing, when a colour is null or when the two colours refer to different RGB space definitions, and does not throw otherwise.", "quantifier": "all operators, all argument pairs", "why_tests_cant": "All operators and pointer combinations.", "anchors": ["ColorMagic/manipulation/porter_duff.cpp", "ColorMagic/manipulation/color_blend.cpp", "ColorMagic/manipulation/base_color_blend.h"]}
{"id": "C60", "title": "Porter-Duff operators compute the Porter-Duff coverage and colour", "statement": "In exact arithmetic each of the 12 operators yields alpha = Fa*as + Fb*ad and alpha*colour = Fa*as*cs + Fb*ad*cd with the operator's classical factors (e.g. over: Fa=1, Fb=1-as), for deep colours with components and alphas in [0,1].", "quantifier": "all pairs of colours, all 12 operators", "why_tests_cant": "A continuum of colours and alphas for each operator.", "anchors": ["ColorMagic/manipulation/porter_duff.cpp", "ColorMagic/manipulation/base_color_blend.h: general_porter_duff"]}
{"id": "C61", "title": "Porter-Duff results are in range", "statement": "For deep colours with alphas in [0,1], the result of each of the 12 operators has all components in [0,1], not NaN, and alpha in [0,1], in binary32 arithmetic.", "quantifier": "all pairs of colours, all 12 operators, machine arithmetic", "why_tests_cant": "Rounding could push the un-premultiplied component above 1; needs monotonicity of rounding for all floats.", "anchors": ["ColorMagic/manipulation/porter_duff.cpp", "ColorMagic/manipulation/base_color_blend.h: general_porter_duff"]}
{"id": "C62", "title": "Porter-Duff dual operators mirror each other", "statement": "dest_over, dest_in, dest_out, dest_atop and dest applied to (s,d) give the same components and alpha as over, in, out, atop and src applied to (d,s); xor is symmetric; over with an opaque source gives the source; clear gives a fully transparent black.", "quantifier": "all pairs of deep colours with alpha in [0,1], exact arithmetic", "why_tests_cant": "A continuum.", "anchors": ["ColorMagic/manipulation/porter_duff.cpp"]}
{"id": "C63", "title": "Blend modes of opaque colours apply the blend function", "statement": "For two opaque deep colours each component-wise blend mode returns exactly the clamped blend function of the components, with alpha 1.", "quantifier": "all opaque pairs, all component-wise modes, binary32", "why_tests_cant": "A continuum.", "anchors": ["ColorMagic/manipulation/color_blend.cpp", "ColorMagic/manipulation/color_blend.h: *_func"]}
{"id": "C64", "title": "Blend functions obey the laws of their standard definition", "statement": "multiply, screen, darken, lighten, difference and exclusion are commutative; white is neutral for multiply and black for screen; overlay is hard light with swapped arguments; difference of equal colours is black; all of multiply, screen, overlay, hard light, darken, lighten, color dodge, difference, exclusion, hard mix, pin light map [0,1]^2 into [0,1].", "quantifier": "all pairs in [0,1]^2, exact arithmetic", "why_tests_cant": "A continuum.", "anchors": ["ColorMagic/manipulation/color_blend.h"]}
{"id": "C65", "title": "Color burn and soft light follow their standard definition", "statement": "color_burn(s,d) = 1 - min(1,(1-d)/s) and soft light is continuous in the source and fixes black and white backdrops.", "quantifier": "all pairs in [0,1]^2", "why_tests_cant": "False: color burn lacks the outer 1-x and soft light a factor.", "anchors": ["ColorMagic/manipulation/color_blend.h: color_burn_func, soft_light_func"]}
{"id": "C66", "title": "Blend results are in range", "statement": "The result of each blend mode applied to in-range colours has components in range.", "quantifier": "all pairs of in-range deep colours with alpha in [0,1]", "why_tests_cant": "False: for linear dodge of translucent colours the component is divided by alpha after clamping and exceeds 1.", "anchors": ["ColorMagic/manipulation/base_color_blend.h", "ColorMagic/manipulation/color_blend.cpp"]}
{"id": "C67", "title": "HCY blend modes validate their arguments like the others", "statement": "hue, saturation, color and luminosity throw std::invalid_argument for null colours and for different RGB spaces.", "quantifier": "all argument pairs", "why_tests_cant": "False: a null pointer is dereferenced.", "anchors": ["ColorMagic/manipulation/color_blend.cpp: hue, saturation, color, luminosity"]}
{"id": "C68", "title": "Adapting to the current white point is the identity", "statement": "Every adaptation function returns the very same colour object, unchanged, when the target white point is the white point of the colour's RGB space.", "quantifier": "all colours, all methods, all spaces", "why_tests_cant": "All colours and methods.", "anchors": ["ColorMagic/manipulation/chromatic_adaptation.cpp"]}
{"id": "C69", "title": "Adaptation maps the source white to the target white", "statement": "In exact arithmetic the simplified adaptations map the XYZ colour with the source white's tristimulus to the target white's tristimulus: exactly for XYZ scaling, and within 0.001 for von Kries, Bradford, Sharp, CMCCAT97, CMCCAT2000 and CAT02 for white points with non-vanishing cone responses and tristimulus values in [0,1.5].", "quantifier": "all pairs of white points", "why_tests_cant": "A continuum of white point pairs.", "anchors": ["ColorMagic/manipulation/chromatic_adaptation.cpp: do_adaption"]}
{"id": "C70", "title": "Adaptation does not touch the original RGB space", "statement": "An adaptation with a different white point returns a colour of the input type whose RGB space is a new definition with the target white point, the same primaries and gamma, and correctly recomputed matrices; the original space definition is unchanged.", "quantifier": "all colours (types other than LCh), all white points, simplified methods", "why_tests_cant": "All colours and spaces.", "anchors": ["ColorMagic/manipulation/chromatic_adaptation.cpp: do_adaption"]}
{"id": "C71", "title": "Full Bradford adaptation works for every colour type", "statement": "bradford_adaptation is defined for every colour.", "quantifier": "all colours", "why_tests_cant": "False: it reads the second component of the input colour, which greys do not have.", "anchors": ["ColorMagic/manipulation/chromatic_adaptation.cpp: bradford_adaptation"]}
{"id": "C72", "title": "Euclidean and CIE76 distances are metrics on distinct converted colours", "statement": "In exact arithmetic euclidean_distance (and its square) and cielab_delta_e_cie76 are non-negative, symmetric, zero for a colour and itself, zero exactly when the converted components agree, and the (non-squared) distances satisfy the triangle inequality, for deep (resp. Lab) colours.", "quantifier": "all triples of colours", "why_tests_cant": "Triangle inequality over a continuum of triples.", "anchors": ["ColorMagic/manipulation/color_distance.cpp: euclidean_distance_squared, euclidean_distance, cielab_delta_e_cie76"]}
{"id": "C73", "title": "Delta E 94 is symmetric", "statement": "cielab_delta_e_cie94(a,b) = cielab_delta_e_cie94(b,a).", "quantifier": "all pairs of Lab colours", "why_tests_cant": "False for colours of different chroma.", "anchors": ["ColorMagic/manipulation/color_distance.cpp: cielab_delta_e_cie94"]}
{"id": "C74", "title": "euclidean_distance honours the requested calculation space", "statement": "euclidean_distance(a,b,CIELUV) is the square root of euclidean_distance_squared(a,b,CIELUV).", "quantifier": "all pairs of colours", "why_tests_cant": "False: the argument is not forwarded.", "anchors": ["ColorMagic/manipulation/color_distance.cpp: euclidean_distance"]}
{"id": "C75", "title": "Measuring a distance does not modify the colours", "statement": "All distance functions leave both colours unchanged.", "quantifier": "all pairs of colours", "why_tests_cant": "False for RGB_DEEP colours with Lab-based distances.", "anchors": ["ColorMagic/manipulation/color_distance.cpp"]}
{"id": "C76", "title": "Colour combinations have the requested size and start from the input", "statement": "create_combination(c,n) throws std::invalid_argument for n = 0, n = 1 and n > 360; for 2 <= n <= 360 it returns exactly n colours, the first being c itself and all others new colours of c's type (types other than LCh). The hues of the HSL colours they are built from are c's hue plus i*360/n modulo 360 in exact arithmetic, with values above 359 limited to 359 (the range of the hue).", "quantifier": "all colours, all n", "why_tests_cant": "All n and colours.", "anchors": ["ColorMagic/manipulation/color_combinations.cpp: create_combination"]}
{"id": "C77", "title": "Negative combination sizes are rejected", "statement": "create_combination throws for every n < 2.", "quantifier": "all n", "why_tests_cant": "False for negative n, which return a single colour.", "anchors": ["ColorMagic/manipulation/color_combinations.cpp: create_combination"]}
{"id": "C78", "title": "Combinations preserve alpha", "statement": "Each colour of a combination has the alpha of the base colour.", "quantifier": "all colours", "why_tests_cant": "False for 8-bit colours: alpha 0..255 is stored in an HSL colour and comes back as 255.", "anchors": ["ColorMagic/manipulation/color_combinations.cpp: create_combination"]}
{"id": "C79", "title": "Analogous and monochromatic schemes have the documented shape", "statement": "create_analogous returns three colours with the base in the middle, throws for distance 0 and above 120; create_monochromatic(base,mode,amount,n) throws for amounts outside [0,1], for n <= 0 and (when n > 1) for unknown modes, otherwise returns n colours starting with base.", "quantifier": "all colours of a type other than LCh (for the rejections: of any type), all distances, amounts, modes and counts", "why_tests_cant": "Unbounded counts and all floats.", "anchors": ["ColorMagic/manipulation/color_combinations.cpp: create_analogous, create_monochromatic"]}
{"id": "C80", "title": "Adjusting by zero percent does not change the colour", "statement": "saturate_in_hsl_space/luminate_in_hsl_space with 0 return the very same object; the RGB-space variants with 0 return a colour with the same components for deep RGB colours (exact arithmetic).", "quantifier": "all colours", "why_tests_cant": "All colours.", "anchors": ["ColorMagic/manipulation/color_adjustments.cpp"]}
{"id": "C81", "title": "RGB adjustments follow their formula and saturate", "statement": "In exact arithmetic luminate_in_rgb_space multiplies every channel by 1+p and clamps to [0,1]; with p = -1 it yields black; saturate_in_rgb_space with p = -1 yields the grey of luma 0.299R+0.587G+0.114B; alpha is preserved.", "quantifier": "all deep RGB colours and all percentages", "why_tests_cant": "A continuum.", "anchors": ["ColorMagic/manipulation/color_adjustments.cpp: luminate_in_rgb_space, saturate_in_rgb_space"]}
{"id": "C82", "title": "The pointer variants of the HSL adjustments leave the input unchanged", "statement": "saturate_in_hsl_space(color*, p) and luminate_in_hsl_space(color*, p) return a new colour and leave the input unchanged.", "quantifier": "all colours and percentages", "why_tests_cant": "False for HSL inputs, which are modified in place.", "anchors": ["ColorMagic/manipulation/color_adjustments.cpp: saturate_in_hsl_space, luminate_in_hsl_space"]}
{"id": "C83", "title": "Adjustments are defined for every colour type", "statement": "The adjustment functions taking a colour by reference are defined for every colour type.", "quantifier": "all types", "why_tests_cant": "False for LCh colours: convertTo returns nullptr, which is dereferenced.", "anchors": ["ColorMagic/manipulation/color_adjustments.cpp"]}
{"id": "C84", "title": "Setting a component by index keeps its documented range", "statement": "set_component(v,i) and gamma correction leave every component of every colour inside the range documented for that component, also for the luminance of Lab and CIELUV colours.", "quantifier": "all colours, all values and indices", "why_tests_cant": "False only for component 0 of Lab and CIELUV, whose own limits differ from the limits of the class.", "anchors": ["ColorMagic/spaces/color_base.h: set_component", "ColorMagic/spaces/lab.cpp: luminance", "ColorMagic/spaces/cieluv.cpp: L"]}
{"id": "C85", "title": "Constructors and named setters store the saturated argument", "statement": "The constructor of every class that takes one number per component, and every named component setter, stores the given number unchanged when it lies in the documented range of that component, saturated to the range when it is finite and outside, taken modulo 360 for the hues of HSI, HSV, HSL and HCY, and the upper bound for NaN; a setter changes no other component, nor type, alpha or space. The constructor stores alpha unchanged, and for the 8-bit classes a whole alpha of 0..255 is read back exactly.", "quantifier": "all fifteen classes, all binary32 arguments", "why_tests_cant": "2^32 values per argument and class; C01 alone would allow a program that stores zeros.", "anchors": ["ColorMagic/spaces/*.cpp: constructors and setters"]}
{"id": "C86", "title": "Every preset gamma curve is order preserving", "statement": "The gamma and inverse gamma curves of the piecewise presets (sRGB, ROMM, UHDTV) are monotone on [0,1] and map [0,1] into [0,1].", "quantifier": "all real pairs x<=y in [0,1]", "why_tests_cant": "The drops sit exactly at the break points (for sRGB within 1e-9 of it). False for the sRGB and UHDTV gamma curve and the ROMM inverse curve; true for the other three.", "anchors": ["ColorMagic/spaces/gamma.h: gamma_sRGB, gammaRomm, gammaUHDTV"]}
{"id": "C87", "title": "Without include_alpha the alpha of the first operand is kept", "statement": "add, mix and subtract with include_alpha = false return a colour with exactly the stored alpha of the first operand (HSL colours of lightness 0 excepted), also when the operands are converted on the way, for all types including the 8-bit ones.", "quantifier": "all pairs of colours with alpha in range, all valid weights, binary32", "why_tests_cant": "The 8-bit types rescale alpha by 255 and back, so the claim depends on rounding for every one of the reachable alpha values.", "anchors": ["ColorMagic/manipulation/color_calculation.cpp: add, mix, subtract"]}
{"id": "C88", "title": "NaN weights are rejected", "statement": "add, mix and subtract throw std::invalid_argument when a weight is NaN.", "quantifier": "all pairs of colours", "why_tests_cant": "False: both comparisons of the range check are false for NaN.", "anchors": ["ColorMagic/manipulation/color_calculation.cpp: add, mix, subtract"]}
{"id": "C89", "title": "The alpha of a calculated colour stays in range", "statement": "For operands with alpha in range and valid weights, the alpha of the result of add, mix and subtract with include_alpha = true is in range.", "quantifier": "all pairs of colours, all valid weights", "why_tests_cant": "False: the alpha given to a constructor is not clamped by the classes with alpha in [0,1].", "anchors": ["ColorMagic/manipulation/color_calculation.cpp: add, subtract"]}
{"id": "C90", "title": "Normal blending is the Porter-Duff operator its documentation names", "statement": "color_blend::normal is porter_duff::over with both regions, porter_duff::src with the source region only, porter_duff::dest with the destination region only and porter_duff::in with neither.", "quantifier": "all pairs of colours, binary32", "why_tests_cant": "True in three of the four cases; with the destination region only it is atop, which differs from dest only where the colours overlap.", "anchors": ["ColorMagic/manipulation/color_blend.cpp: normal", "ColorMagic/manipulation/color_blend.h: normal", "ColorMagic/manipulation/porter_duff.cpp"]}
{"id": "C91", "title": "Vivid light follows its standard definition", "statement": "vivid_light(s,d) is color burn with 2s for s <= 1/2 and color dodge with 2s-1 otherwise.", "quantifier": "all pairs in [0,1]^2", "why_tests_cant": "False: the two halves are exchanged and the burn is not inverted.", "anchors": ["ColorMagic/manipulation/color_blend.h: vivid_light_func"]}
{"id": "C92", "title": "Blending returns a colour for every source type", "statement": "Every Porter-Duff operator and component-wise blend mode with two valid colours in the same RGB space returns a new colour of the type of the source.", "quantifier": "all pairs of colours", "why_tests_cant": "False for LCh sources: the final convertTo returns nullptr. Proved for the other types (C59).", "anchors": ["ColorMagic/manipulation/porter_duff.cpp", "ColorMagic/manipulation/color_blend.cpp"]}
{"id": "C93", "title": "Blend modes weight source, destination and common area", "statement": "In exact arithmetic a component-wise blend of deep colours with alphas a, b in [0,1] and a blend function B into [0,1] yields alpha = sa + da + ab and alpha*colour = sa*s + da*d + ab*B(s,d), where sa = a(1-b) or 0 and da = b(1-a) or 0 depending on the region flags; the components stay in [0,1] and alpha 0 gives black.", "quantifier": "all pairs of deep colours with alpha in [0,1], all bounded modes including custom functions, all region flags", "why_tests_cant": "A continuum of colours and alphas for each mode.", "anchors": ["ColorMagic/manipulation/base_color_blend.h: general_porter_duff", "ColorMagic/manipulation/color_blend.cpp"]}
{"id": "C94", "title": "The HCY blend modes recombine hue, chroma and luma", "statement": "hue, saturation, color and luminosity return a new colour of the type of the source, in its RGB space, all components in range, and change no existing object; for HCY colours the result has exactly the hue, chroma and luma taken from source and destination as documented, and the alpha of the source.", "quantifier": "all pairs of colours (source not LCh), binary32", "why_tests_cant": "All colour types and floats.", "anchors": ["ColorMagic/manipulation/color_blend.cpp: hue, saturation, color, luminosity"]}
{"id": "C95", "title": "Adjustments return a colour of the argument's type", "statement": "saturate_in_rgb_space, luminate_in_rgb_space, saturate_in_hsl_space and luminate_in_hsl_space return a colour of the argument's type with its components in range and its RGB space, and touch no other object than the argument. The two RGB functions keep the alpha (rounded to a multiple of 1/255 for 8-bit types).", "quantifier": "all colours except LCh, all percentages including infinite and NaN, binary32 (alpha: colours with alpha in [0,1] that are not HSL black)", "why_tests_cant": "All colour types and floats.", "anchors": ["ColorMagic/manipulation/color_adjustments.cpp: saturate_in_rgb_space, luminate_in_rgb_space, saturate_in_hsl_space, luminate_in_hsl_space"]}
{"id": "C96", "title": "HSL adjustments keep the alpha", "statement": "saturate_in_hsl_space and luminate_in_hsl_space return a colour with the alpha of the argument.", "quantifier": "all colours, all percentages", "why_tests_cant": "False for black RGB colours: they go through an HSL colour of lightness 0, whose alpha is dropped on the way back.", "anchors": ["ColorMagic/manipulation/color_adjustments.cpp: saturate_in_hsl_space"]}
{"id": "C97", "title": "HSL adjustments scale saturation or lightness", "statement": "For an HSL colour (h,s,l) and p other than 0, saturate_in_hsl_space returns (h, s*(1+p) limited to [0,1], l) and luminate_in_hsl_space (h, s, l*(1+p) limited to [0,1]), with the same alpha and RGB space, in exact arithmetic.", "quantifier": "all HSL colours, all non-zero p, exact arithmetic", "why_tests_cant": "Continuum of inputs.", "anchors": ["ColorMagic/manipulation/color_adjustments.cpp: saturate_in_hsl_space, luminate_in_hsl_space"]}
{"id": "C98", "title": "Monochromatic schemes of HSL colours are geometric", "statement": "The k-th further colour of create_monochromatic(base,mode,amount,n) for an HSL base (h,s,l) has hue h and alpha of the base, saturation s*(1-amount)^k (modes 0 and 2) and lightness l*(1-amount)^k (modes 1 and 2); the other component is unchanged.", "quantifier": "all HSL colours, amounts in [0,1], modes 0 to 2, all counts n >= 1, exact arithmetic", "why_tests_cant": "Unbounded counts; needs induction over the loop.", "anchors": ["ColorMagic/manipulation/color_combinations.cpp: create_monochromatic"]}
{"id": "C99", "title": "Colour schemes are defined for every colour type", "statement": "create_combination, create_monochromatic and create_complimentary_split return colours for every base colour.", "quantifier": "all colours", "why_tests_cant": "False for LCh colours: the further colours of a combination are null pointers, a monochromatic scheme of three or more colours and the complementary split dereference one.", "anchors": ["ColorMagic/manipulation/color_combinations.cpp: create_combination, create_monochromatic, create_complimentary_split"]}
{"id": "C100", "title": "Complementary splits have the documented shape", "statement": "create_complimentary_split(base,amount) throws std::invalid_argument for amount 0 and above 120 and otherwise returns three colours with base in the middle, the other two being new colours of base's type and RGB space.", "quantifier": "all colours of a type other than LCh (for the rejection: of any type), all amounts", "why_tests_cant": "All floats and colour types.", "anchors": ["ColorMagic/manipulation/color_combinations.cpp: create_complimentary_split"]}
{"id": "C101", "title": "The weighted distance stays close to the Euclidean one", "statement": "euclidean_distance_weighted is symmetric and lies between sqrt(2) and 2 times the Euclidean distance of the two colours' RGB components, in exact arithmetic.", "quantifier": "all pairs of RGB_DEEP colours, exact arithmetic", "why_tests_cant": "Continuum of pairs.", "anchors": ["ColorMagic/manipulation/color_distance.cpp: euclidean_distance_weighted"]}
{"id": "C102", "title": "Delta E 94 is the published formula and separates colours", "statement": "cielab_delta_e_cie94 of Lab colours is the CIE 1994 formula with the first colour as reference; it is never negative and 0 exactly for equal components, for parameters kL, kC, kH > 0 and k1, k2 >= 0.", "quantifier": "all pairs of Lab colours and parameters, exact arithmetic", "why_tests_cant": "Continuum of pairs; the hue term is a square root of a difference that must be shown non-negative.", "anchors": ["ColorMagic/manipulation/color_distance.cpp: cielab_delta_e_cie94"]}
{"id": "C103", "title": "Distances of equal colours are 0", "statement": "Every distance function returns a number that is not negative, which is 0 if both arguments are the same object or their converted forms have equal components, in exact arithmetic and for positive parameters.", "quantifier": "all distance functions, all pairs of colours of any type (with RGB space where the conversion needs it), exact arithmetic", "why_tests_cant": "All types and components.", "anchors": ["ColorMagic/manipulation/color_distance.cpp"]}
{"id": "C104", "title": "Distance functions never fail", "statement": "Every distance function except Delta E 2000 returns a float without exception or undefined behaviour, and changes no other object than its two arguments.", "quantifier": "all pairs of colours of any type (with RGB space where the conversion needs it), all parameters including NaN, every C library, binary32", "why_tests_cant": "All types, floats and library functions.", "anchors": ["ColorMagic/manipulation/color_distance.cpp"]}
{"id": "C105", "title": "Delta E 2000 is symmetric", "statement": "cielab_delta_e_cie00(a,b) = cielab_delta_e_cie00(b,a) for all Lab colours and parameters, in exact arithmetic (including the truncation of the hue angles to integers).", "quantifier": "all pairs of Lab colours and parameters, exact arithmetic", "why_tests_cant": "Continuum of pairs, several branches on the hue angles.", "anchors": ["ColorMagic/manipulation/color_distance.cpp: cielab_delta_e_cie00"]}
{"id": "C106", "title": "Delta E 2000 is the published formula", "statement": "cielab_delta_e_cie00 with default parameters returns the CIEDE2000 difference (Sharma, Wu, Dalal 2005).", "quantifier": "all pairs of Lab colours, exact arithmetic", "why_tests_cant": "False: chroma is not computed from the corrected a component, so the result is too small for all colours on the positive a axis (among others).", "anchors": ["ColorMagic/manipulation/color_distance.cpp: cielab_delta_e_cie00"]}
{"id": "C107", "title": "Lab distances are never NaN", "statement": "Delta E 94, Delta E 2000 and CMC l:c of two valid Lab colours are numbers, not NaN.", "quantifier": "all pairs of Lab colours, binary32", "why_tests_cant": "False: rounding can make the radicand of the hue difference negative (Delta E 94 and CMC, Lab (50,-12,2) and (50,-6,1)); in Delta E 2000 the exponent has the wrong sign, so it overflows for mean hues below 39 degrees and the sine of infinity is NaN.", "anchors": ["ColorMagic/manipulation/color_distance.cpp: cielab_delta_e_cie94, cielab_delta_e_cie00, cmc_delta_e_lc84"]}
{"id": "C108", "title": "CMC l:c is the published formula", "statement": "cmc_delta_e_lc84 of Lab colours is the CMC l:c (1984) formula with the first colour as reference, if the reference hue is not exactly 164 degrees, where the code uses the other branch.", "quantifier": "all pairs of Lab colours, all l, c > 0, exact arithmetic", "why_tests_cant": "Continuum of pairs, piecewise formula.", "anchors": ["ColorMagic/manipulation/color_distance.cpp: cmc_delta_e_lc84"]}
{"id": "C109", "title": "CMC l:c is symmetric", "statement": "cmc_delta_e_lc84(a,b) = cmc_delta_e_lc84(b,a).", "quantifier": "all pairs of Lab colours", "why_tests_cant": "False for every grey and every colour on the positive a axis.", "anchors": ["ColorMagic/manipulation/color_distance.cpp: cmc_delta_e_lc84"]}
{"id": "C110", "title": "Adaptation returns a colour for every type", "statement": "Every adaptation function returns a colour (not a null pointer) for a colour of any of the fifteen types.", "quantifier": "all colour types, all methods", "why_tests_cant": "False: for both LCh types every method returns a null pointer when the white point differs, because convertTo does not know them.", "anchors": ["ColorMagic/manipulation/chromatic_adaptation.cpp", "ColorMagic/manipulation/color_converter.cpp: convertTo"]}
{"id": "C111", "title": "Adaptation leaves the input colour unchanged", "statement": "No adaptation function modifies the colour it is given.", "quantifier": "all colours, all methods", "why_tests_cant": "False for colours of type RGB_DEEP: the conversion to XYZ linearises the colour in place, so adapting (1/32,1/32,1/32) darkens it to below 1/320.", "anchors": ["ColorMagic/manipulation/chromatic_adaptation.cpp"]}
{"id": "C112", "title": "Adaptation keeps alpha", "statement": "The adapted colour has the alpha of the input colour, for all types without 8-bit alpha (except HSL black, see C34).", "quantifier": "all colours, methods and white points, all libm implementations", "why_tests_cant": "All types, alphas and methods.", "anchors": ["ColorMagic/manipulation/chromatic_adaptation.cpp"]}
{"id": "C113", "title": "The simplified adaptations are the linear von Kries transform", "statement": "For an XYZ colour v each simplified method returns the clamped Inv * diag(target/source cone responses) * M * v with the method's two matrices; XYZ scaling multiplies each component by the quotient of the tristimulus values; Inv * M differs from the identity by at most 15 ppm of the largest component.", "quantifier": "all XYZ colours and white points, exact arithmetic", "why_tests_cant": "A continuum of colours and white points.", "anchors": ["ColorMagic/manipulation/chromatic_adaptation.cpp: do_adaption"]}
{"id": "C114", "title": "Adapting to a white point of the same value changes nothing", "statement": "Adapting an XYZ colour to another white point object with the same values changes no component by more than 15 ppm of the largest component, for all eleven methods and all parameters (for the full Bradford and CMCCAT97 methods: if Y is not zero).", "quantifier": "all XYZ colours, all white points with positive cone responses, all parameters, exact arithmetic", "why_tests_cant": "A continuum of colours, white points and parameters.", "anchors": ["ColorMagic/manipulation/chromatic_adaptation.cpp"]}
{"id": "C115", "title": "Partial adaptation interpolates between the white points", "statement": "CAT02 with degree of adaptation D maps the source white to D * target + (1-D) * source, and CMCCAT2000 to D * (Y_source/Y_target) * target + (1-D) * source, both within 15 ppm, where D is the published degree clamped to [0,1].", "quantifier": "all white points, all surround factors and luminances, exact arithmetic", "why_tests_cant": "A continuum of parameters.", "anchors": ["ColorMagic/manipulation/chromatic_adaptation.cpp: cat02_adaptation, cmccat2000_adaptation"]}
{"id": "C116", "title": "Full Bradford maps white to white", "statement": "bradford_adaptation maps the XYZ colour of the source white to the target white scaled to the luminance of the source white, within 15 ppm.", "quantifier": "all pairs of white points, exact arithmetic", "why_tests_cant": "A continuum of white points.", "anchors": ["ColorMagic/manipulation/chromatic_adaptation.cpp: bradford_adaptation"]}
{"id": "C117", "title": "Adaptation keeps black", "statement": "Every adaptation function maps black to black.", "quantifier": "all methods, all white points", "why_tests_cant": "False for full Bradford and full CMCCAT97: they divide by the second component of the input colour, so every colour with second component 0 (XYZ black, 8-bit RGB red) is treated as XYZ (100,100,100). Holds for the simplified methods in exact arithmetic.", "anchors": ["ColorMagic/manipulation/chromatic_adaptation.cpp: bradford_adaptation, cmccat97_adaptation"]}
{"id": "C118", "title": "A null target white point is handled", "statement": "Adapting to a null white point is defined.", "quantifier": "all colours, all methods", "why_tests_cant": "False: the null pointer is dereferenced by every method.", "anchors": ["ColorMagic/manipulation/chromatic_adaptation.cpp"]}
{"id": "C119", "title": "CMCCAT2000 works for a dark surround", "statement": "cmccat2000_adaptation with both luminances 0 returns an adaptation of the colour.", "quantifier": "all colours", "why_tests_cant": "False: 0/0 makes the degree of adaptation NaN and the clamping constructor turns NaN into 100, so the result does not depend on the colour: it is XYZ (100,100,100) converted to the input type.", "anchors": ["ColorMagic/manipulation/chromatic_adaptation.cpp: cmccat2000_adaptation"]}
{"id": "C120", "title": "Matrix element access is bounds checked", "statement": "operator()(row, col) returns the element for indices inside the matrix and throws std::out_of_range for every index outside it, with a message naming the index.", "quantifier": "all matrices of all shapes, all int indices", "why_tests_cant": "All ints and all shapes; the failing indices crash instead of failing an assertion. False: negative indices pass the test and index the vectors out of bounds, and the message is built by pointer arithmetic on a string literal, which leaves the literal for large indices.", "anchors": ["ColorMagic/utils/matrix.h: operator()"]}
{"id": "C121", "title": "Sums, differences and scalar operations work on every shape", "statement": "For matrices of equal shape, operator+ and operator- are elementwise and keep the shape; the four operators with a scalar are elementwise; a right operand that is too small is reported by std::out_of_range.", "quantifier": "all shapes (up to 38 x 41 for the exception), all entries, exact arithmetic", "why_tests_cant": "All sizes and entries.", "anchors": ["ColorMagic/utils/matrix.h"]}
{"id": "C122", "title": "Resizing keeps the common part", "statement": "resize(r,c,v) yields an r x c matrix which agrees with the old one where both have entries and holds v elsewhere; resizing to the same shape is the identity, enlarging and shrinking back is the identity.", "quantifier": "all shapes and entries", "why_tests_cant": "All sizes.", "anchors": ["ColorMagic/utils/matrix.h: resize"]}
{"id": "C123", "title": "Matrix equality, assignment, copying and compound operators", "statement": "operator== holds exactly if shape and all entries are equal; assignment and copy construction yield an equal matrix; fill sets every entry; the compound operators agree with the binary ones.", "quantifier": "all shapes, all entries (float: except NaN and signed zeros, made explicit)", "why_tests_cant": "All sizes and entries.", "anchors": ["ColorMagic/utils/matrix.h"]}
{"id": "C124", "title": "Every named colour is available in every offered type", "statement": "For every enumerator of hexcode_colors and each getter of predefined_color, on every heap with a usable RGB space, the factory returns a colour object of exactly that type, in the factory's space, with alpha 1 (0 for Transparent), and changes no existing object.", "quantifier": "all 141 named colours, all getters, all usable spaces, all heaps, every C library", "why_tests_cant": "141 colours times 10 offered types times all RGB spaces and libms.", "anchors": ["ColorMagic/utils/colors.h: predefined_color"]}
{"id": "C125", "title": "Factory getters return independent objects", "statement": "Two calls of a getter of predefined_color return different objects, so that changing one result does not change later results.", "quantifier": "all factories and getters", "why_tests_cant": "False for the RGB getter: it returns the pointer the factory itself converts from.", "anchors": ["ColorMagic/utils/colors.h: predefined_color"]}
{"id": "C126", "title": "Named colours are distinct", "statement": "All enumerator names are distinct, and two enumerators have the same value only if they are Aqua/Cyan or Fuchsia/Magenta.", "quantifier": "all pairs of named colours", "why_tests_cant": "About 20000 pairs; a copy-and-paste error in the table is not noticed by tests of single colours.", "anchors": ["ColorMagic/utils/colors.h: hexcode_colors"]}
{"id": "C127", "title": "Pieces can be removed from a gamma curve", "statement": "remove_part and remove_inverse_part remove the given piece and report whether it was there.", "quantifier": "all curves, all pieces", "why_tests_cant": "False: both functions have return type bool but no return statement, which is undefined behaviour for every call.", "anchors": ["ColorMagic/spaces/gamma.h: remove_part, remove_inverse_part"]}
{"id": "C128", "title": "A gamma curve is not affected by later changes of its pieces or copies", "statement": "Evaluation of a curve always applies the piece with the smallest sufficient border, also after a border was changed, and a copy is independent of the original.", "quantifier": "all curves, all sequences of changes", "why_tests_cant": "False: pieces are shared by pointer and sorted only when added. Partial: as long as no piece is modified, the pointer-based curve behaves as the curve by value used in the rest of the model.", "anchors": ["ColorMagic/spaces/gamma.h"]}
{"id": "C129", "title": "Null pieces of a gamma curve are skipped", "statement": "Curves constructed from lists of pieces containing null pointers ignore them, as the null tests in the evaluation loops intend.", "quantifier": "all lists of pieces", "why_tests_cant": "False: the sort dereferences the null pointers as soon as there are two pieces. A curve with one null piece and no other is handled.", "anchors": ["ColorMagic/spaces/gamma.h"]}
{"id": "C130", "title": "Equal gamma curves compare equal", "statement": "Two curves built from pieces with the same functions and borders are equal, and so are two equal pieces.", "quantifier": "all curves and pieces", "why_tests_cant": "False: curves compare the piece pointers, and pieces compare the bytes of the std::function objects.", "anchors": ["ColorMagic/spaces/gamma.h: operator=="]}
{"id": "C131", "title": "The default RGB space converts colours", "statement": "Conversion through the default-constructed rgb_color_space_definition keeps different colours different.", "quantifier": "all colours", "why_tests_cant": "False: its conversion matrix is zero, so every colour becomes black.", "anchors": ["ColorMagic/spaces/rgb_color_space_definition.h"]}
{"id": "C132", "title": "Degenerate primaries are rejected", "statement": "Constructing an RGB space whose primaries are collinear fails.", "quantifier": "all collinear primaries", "why_tests_cant": "False: the space is built; the inverse of the singular matrix is reported to be the matrix itself.", "anchors": ["ColorMagic/spaces/rgb_color_space_definition.h", "ColorMagic/utils/matrix.h: invert"]}
{"id": "C133", "title": "White point equality is equality of values", "statement": "operator== on white points holds exactly if all six stored numbers are equal, in exact arithmetic and (for non-NaN values, up to the sign of zero) in binary32.", "quantifier": "all white points", "why_tests_cant": "A continuum of white points.", "anchors": ["ColorMagic/spaces/white_point.h: operator=="]}
{"id": "C134", "title": "Programs that follow a static discipline never misbehave", "statement": "A client program is any sequence of public calls (construct spaces and colours, copy, assign, set components and alpha, gamma-correct, convert, add, mix, subtract, average, composite, blend, adjust, combine, measure distances except CIEDE2000, adapt) whose arguments satisfy conditions on types, spaces and numeric parameters only. Started in any good state it runs to completion without exception, undefined behaviour or divergence, and every variable then points to a colour of the statically known type, with all components in range, in the statically known RGB space.", "quantifier": "all programs of any length, all colours, all math library results", "why_tests_cant": "Programs are unboundedly long and each call may change objects that later calls use through several aliases.", "anchors": ["ColorMagic/manipulation/color_converter.cpp", "ColorMagic/manipulation/color_calculation.cpp", "ColorMagic/manipulation/color_blend.cpp", "ColorMagic/manipulation/color_adjustments.cpp", "ColorMagic/manipulation/color_combinations.cpp", "ColorMagic/manipulation/color_distance.cpp", "ColorMagic/manipulation/chromatic_adaptation.cpp", "ColorMagic/spaces/color_base.h"]}
{"id": "C135", "title": "Only the announced objects change", "statement": "During such a program only the colours of statically determined variables can change: targets of setters, assignments and in-place adjustments, deep RGB colours converted to a CIE type, and HSL colours adjusted in HSL. Every other colour and every existing RGB space definition is unchanged; changed colours stay well-formed and in their space.", "quantifier": "all programs of any length, all states", "why_tests_cant": "The absence of side effects has to be shown for every object of every heap, for every program.", "anchors": ["ColorMagic/manipulation/color_converter.cpp", "ColorMagic/manipulation/color_calculation.cpp", "ColorMagic/manipulation/color_adjustments.cpp", "ColorMagic/spaces/color_base.h"]}
{"id": "C136", "title": "RGB converts to HSV, HSL, HSI, HCY and CMYK by the published formulas", "statement": "In exact arithmetic the hue is the hexagonal hue of the three channels (cut at 359 degrees), and saturation, value, lightness, intensity, chroma, luma (Rec. 709) and the CMYK inks are the textbook expressions of the largest and smallest channel and the mean. Greys get hue and saturation 0; black is excluded for CMYK (C37).", "quantifier": "all deep RGB colours", "why_tests_cant": "A continuum of colours; rounded test data cannot tell the published formula from a nearby one.", "anchors": ["ColorMagic/manipulation/color_converter.cpp:129-212", "ColorMagic/manipulation/color_converter.cpp: hue_from_rgb_helper"]}
{"id": "C137", "title": "HSV, HSL, HCY and CMYK convert to RGB by the published formulas", "statement": "In exact arithmetic the result is the point of the colour hexagon with the given hue and chroma, lifted by V-C, L-C/2 or Y minus its luma (and cut to [0,1] for HCY); CMYK gives (1-ink)(1-k).", "quantifier": "all HSV, HSL, HCY and CMYK colours", "why_tests_cant": "A continuum of colours; rounded test data cannot tell the published formula from a nearby one.", "anchors": ["ColorMagic/manipulation/color_converter.cpp:392-398", "ColorMagic/manipulation/color_converter.cpp:554-578", "ColorMagic/manipulation/color_converter.cpp:650-680", "ColorMagic/manipulation/color_converter.cpp:751-771"]}
{"id": "C138", "title": "HSI converts to RGB by the published formula", "statement": "In exact arithmetic the channels are those of the published HSI formula, the hexagon point plus I(1-S).", "quantifier": "all HSI colours", "why_tests_cant": "False for every colour with saturation and intensity strictly between: the term I(1-S) is missing in all three channels. It holds for S = 0, S = 1 and I = 0.", "anchors": ["ColorMagic/manipulation/color_converter.cpp:465-487"]}
{"id": "C139", "title": "Grey is the mean of the channels and bytes are the nearest ones", "statement": "In exact arithmetic converting RGB to grey gives the mean of the three channels, and converting grey to RGB repeats the grey value three times; converting 8-bit to deep divides by 255 and converting back picks the nearest byte (halves upwards), for the channels, the grey value and alpha. Deep RGB becomes 8-bit grey as the mean of its three nearest bytes. The RGB space is kept. This covers all twelve conversions among the RGB and grey types.", "quantifier": "all RGB and grey colours", "why_tests_cant": "A continuum of colours; rounded test data cannot tell the published formula from a nearby one.", "anchors": ["ColorMagic/manipulation/color_converter.cpp:41-56", "ColorMagic/manipulation/color_converter.cpp:113-127", "ColorMagic/manipulation/color_converter.cpp:247-260", "ColorMagic/manipulation/color_converter.cpp:317-330"]}
{"id": "C140", "title": "LCh holds chroma and hue angle in degrees", "statement": "Converting Lab to LCh(ab) and CIELUV to LCh(uv) gives the polar coordinates of (a,b) and (u,v): chroma their length, hue their angle in degrees.", "quantifier": "all Lab and CIELUV colours", "why_tests_cant": "False for all colours with chroma below 50: the chroma is rescaled from the component range, so it is never below 50, and the angle stays in radians, so that hues between pi and 360-pi degrees never occur.", "anchors": ["ColorMagic/manipulation/color_converter.cpp:1108-1118", "ColorMagic/manipulation/color_converter.cpp:1187-1197"]}
{"id": "C141", "title": "LCh converts to Lab and CIELUV by the polar formulas", "statement": "In exact arithmetic the two chromatic components are C cos h and C sin h with h in degrees, and the lightness is kept.", "quantifier": "all LCh(ab) and LCh(uv) colours", "why_tests_cant": "A continuum of colours; rounded test data cannot tell the published formula from a nearby one.", "anchors": ["ColorMagic/manipulation/color_converter.cpp:1264-1273", "ColorMagic/manipulation/color_converter.cpp:1335-1344"]}
{"id": "C142", "title": "XYZ and Lab convert by the CIE formulas", "statement": "In exact arithmetic both directions are the CIE 15 formulas relative to the white point of the colour's RGB space, each component cut to its documented interval.", "quantifier": "all XYZ and Lab colours, all white points with positive coordinates", "why_tests_cant": "A continuum of colours; rounded test data cannot tell the published formula from a nearby one.", "anchors": ["ColorMagic/manipulation/color_converter.cpp:922-935", "ColorMagic/manipulation/color_converter.cpp:1165-1175", "ColorMagic/manipulation/color_converter.cpp:1409-1442"]}
{"id": "C143", "title": "XYZ converts to CIELUV by the CIE formula", "statement": "In exact arithmetic the result is the CIE 1976 L*u*v* formula; in particular the white point has u = v = 0.", "quantifier": "all XYZ colours, all white points", "why_tests_cant": "False for every white point: the lightness is computed from X instead of Y, and v'n of the white point with the factor 4 instead of 9, so that white gets a positive v.", "anchors": ["ColorMagic/manipulation/color_converter.cpp:899-920"]}
{"id": "C144", "title": "CIELUV converts to XYZ by the CIE formula", "statement": "In exact arithmetic the result is the inverse CIE 1976 L*u*v* formula (with Y relative to white), each component cut to [0,100], whenever L is positive and u', v' are not 0.", "quantifier": "all CIELUV colours, all white points", "why_tests_cant": "A continuum of colours; rounded test data cannot tell the published formula from a nearby one.", "anchors": ["ColorMagic/manipulation/color_converter.cpp:1070-1091"]}
{"id": "C145", "title": "Sums and differences are componentwise and cut to the range", "statement": "In exact arithmetic, adding (subtracting) two colours of the same type with weights in [0,1] gives, component by component, the weighted sum (difference) cut to the documented interval of the component; alpha is combined the same way iff include_alpha is set and else kept from the first colour. Types without their own formula are converted to the type that has one, combined there, and converted back.", "quantifier": "all pairs of colours of one type, all weights, both alpha options", "why_tests_cant": "Every component of every type has its own interval and the saturation only shows at its border; two continua of inputs.", "anchors": ["ColorMagic/manipulation/color_calculation.cpp", "ColorMagic/manipulation/color_calculation.h"]}
{"id": "C146", "title": "HSV colours are combined on the hue circle", "statement": "In exact arithmetic, adding, mixing and subtracting HSV colours combines hue and saturation as the plane vectors with angle h and length s, and the value linearly: mixing a colour with itself returns it (greys may lose the hue), and hues d degrees on both sides of 0 mix to hue 0 with saturation s cos d.", "quantifier": "all pairs of HSV colours, all weights", "why_tests_cant": "The wrap-around at 0/360 degrees and the quadrants of the arc tangent are easily missed by tests.", "anchors": ["ColorMagic/manipulation/color_calculation.cpp"]}
{"id": "C147", "title": "The average of two colours is their equal mixture", "statement": "average of two colours and mix of them with weight 1/2 give the same colour.", "quantifier": "all pairs of colours of one type", "why_tests_cant": "False for RGB (the mixture is the root mean square: 1 and 0 give 0.707, their average is 0.5) and for HSV (hues 350 and 10 mix to 0 and average to 180). True for grey, CMYK, XYZ, xyY and CIELUV.", "anchors": ["ColorMagic/manipulation/color_calculation.cpp"]}
{"id": "C148", "title": "Dissolve favours the more opaque colour", "statement": "In the area common to both colours, each component of the dissolved colour is the one of the colour with the larger alpha, except for the quarter of random numbers below 25.", "quantifier": "all pairs of colours, all random sequences", "why_tests_cant": "False for a deep source and an 8-bit destination: the difference of the alphas is taken before the conversion, when alpha() of the 8-bit colour is on the scale 0..255, so that any destination with alpha of at least 1/255 wins. True for deep colours.", "anchors": ["ColorMagic/manipulation/color_blend.cpp:22-45", "ColorMagic/manipulation/color_blend.h:640-660"]}
{"id": "C149", "title": "Rounding errors of RGB round trips are below 2^-17", "statement": "In binary32, converting any deep RGB colour to HSV or CMYK and back changes each channel by at most 2^-18 (HSL, HCY: 2^-17) from the result of the exact round trip, with any implementation of the mathematical library; alpha and RGB space are kept.", "quantifier": "all deep RGB colours with float channels, including denormals and differences of one ulp", "why_tests_cant": "There are 2^90 colours; cancellation (1 - r - k, divisions by a small difference) could magnify errors on a thin set.", "anchors": ["ColorMagic/manipulation/color_converter.cpp:156-212", "ColorMagic/manipulation/color_converter.cpp:129-136", "ColorMagic/manipulation/color_converter.cpp:1356-1407"]}
{"id": "C150", "title": "Every 8-bit RGB colour survives CMYK", "statement": "Converting any 8-bit RGB colour to CMYK and back to 8-bit RGB returns exactly the same bytes and the same alpha, in binary32.", "quantifier": "all 2^24 colours, all 256 alphas, every mathematical library", "why_tests_cant": "Exhaustive testing covers one platform; the proof covers every conforming one and the intermediate values.", "anchors": ["ColorMagic/manipulation/color_converter.cpp:58-61", "ColorMagic/manipulation/color_converter.cpp:387-398"]}
{"id": "C151", "title": "8-bit RGB colours outside a thin wedge survive HSV, HSL and HCY", "statement": "Converting an 8-bit RGB colour to HSV, HSL or HCY and back returns exactly the same bytes and alpha, unless green < blue <= red and red - green >= 60 (blue - green) + 30; black keeps its bytes but not its alpha through HSL.", "quantifier": "all 8-bit RGB colours outside the wedge", "why_tests_cant": "The rounding of hue, saturation and lightness must never move a channel by half a byte.", "anchors": ["ColorMagic/manipulation/color_converter.cpp:68-81", "ColorMagic/manipulation/color_converter.cpp:549-578", "ColorMagic/manipulation/color_converter.cpp:1372-1376"]}
{"id": "C152", "title": "Every 8-bit RGB colour survives HSV and HSL", "statement": "Converting any 8-bit RGB colour to HSV or HSL and back returns the same bytes.", "quantifier": "all 8-bit RGB colours", "why_tests_cant": "False in a thin wedge next to red: the hue is cut to 359 degrees, so (255, 0, 1) comes back as (255, 0, 4).", "anchors": ["ColorMagic/spaces/hsv.cpp: hue", "ColorMagic/manipulation/color_converter.cpp:156-172"]}
{"id": "C153", "title": "The XYZ matrices of the presets are inverse up to 26 units in the last place", "statement": "In binary32, with the gamma curve replaced by the identity, converting any deep RGB colour of a preset RGB space except CIE RGB to XYZ and back changes each channel by at most 26 * 2^-24, with any implementation of the mathematical library; alpha and RGB space are kept.", "quantifier": "all deep RGB colours, 19 of 20 presets", "why_tests_cant": "The stored inverse is itself computed in floats and the tristimulus values are cut to [0,100]; a badly conditioned preset or a negative coefficient would only show on some colours.", "anchors": ["ColorMagic/manipulation/color_converter.cpp:214-221", "ColorMagic/manipulation/color_converter.cpp:838-848", "ColorMagic/spaces/rgb_color_space_definition.h"]}
{"id": "C154", "title": "8-bit RGB colours survive XYZ", "statement": "With a powf accurate to 8 units in the last place, converting any 8-bit RGB colour of 16 of the 20 preset RGB spaces to XYZ and back returns exactly the same bytes, alpha and RGB space, in binary32; deep colours with channels 0 or >= 1/256 come back within 1/500. The same holds of PAL/SECAM and DCI P3 for bytes >= 6, and of ROMM for bytes 0 or >= 8.", "quantifier": "all 2^24 colours, all alphas, every accurate powf", "why_tests_cant": "Near black the power curves magnify an error of 16 * 2^-24 to a fraction of a byte; whether the byte survives depends on the rounding in powf of the platform.", "anchors": ["ColorMagic/manipulation/color_converter.cpp:83-86", "ColorMagic/manipulation/color_converter.cpp:833-848", "ColorMagic/spaces/gamma.h:378-470", "ColorMagic/spaces/rgb_color_space_definition.h"]}
{"id": "C155", "title": "8-bit RGB colours of every preset survive XYZ", "statement": "Converting an 8-bit RGB colour of any preset RGB space to XYZ and back returns the same bytes.", "quantifier": "all presets, all 8-bit colours", "why_tests_cant": "False for ROMM: the curve and its inverse both switch at 0.001953, although the first compares linear and the second encoded values, so every channel value from 1 to 7 comes back smaller. False for CIE RGB: its white point is stored as (0.1, 1, 0.1) instead of (1, 1, 1), so pure red has negative X and Y and comes back black.", "anchors": ["ColorMagic/spaces/gamma.h:453-470", "ColorMagic/spaces/rgb_color_space_definition.h:438", "ColorMagic/manipulation/color_converter.cpp:838-848"]}
{"id": "C156", "title": "A conversion leaves only its result behind", "statement": "After a conversion (or a distance computation) the only new object that still exists is the result.", "quantifier": "all pairs of colour types, all colours, all distance functions", "why_tests_cant": "False: intermediate colours are raw new objects to which no pointer is kept. Converting T to U creates exactly as many objects as the shortest chain of direct conversions from T to U has steps (up to five), all but one of them unreachable; a distance computation leaves the chains of both operands. A test of the returned values cannot see it.", "anchors": ["ColorMagic/manipulation/color_converter.cpp:58-111", "ColorMagic/manipulation/color_converter.cpp:1462-2046", "ColorMagic/manipulation/color_distance.cpp:5-212"]}
{"id": "C157", "title": "Every 8-bit sRGB colour survives xyY", "statement": "With a powf accurate to 8 units in the last place, converting any 8-bit sRGB colour to xyY and back returns exactly the same bytes, alpha and RGB space, in binary32. Black goes through the chromaticity of the white point.", "quantifier": "all 2^24 colours, all alphas, every accurate powf", "why_tests_cant": "The chromaticities of dark colours are quotients of tiny sums, and z is obtained as 1 - x - y; cancellation could lose a byte on a few colours and only on some platforms.", "anchors": ["ColorMagic/manipulation/color_converter.cpp:88-91", "ColorMagic/manipulation/color_converter.cpp:885-897", "ColorMagic/manipulation/color_converter.cpp:992-1003"]}
{"id": "C158", "title": "Every 8-bit sRGB colour survives Lab", "statement": "With a powf accurate to 8 units in the last place, converting any 8-bit sRGB colour to Lab and back returns exactly the same bytes, alpha and RGB space, in binary32. In particular no sRGB colour leaves the Lab ranges [0,100] and [-128,128].", "quantifier": "all 2^24 colours, all alphas, every accurate powf", "why_tests_cant": "The two branches of the Lab curve are chosen independently on the way there and back, the values of a and b are differences of cube roots, and dark channels magnify the errors.", "anchors": ["ColorMagic/manipulation/color_converter.cpp:922-935", "ColorMagic/manipulation/color_converter.cpp:1165-1175", "ColorMagic/manipulation/color_converter.cpp:1409-1442"]}
{"id": "C159", "title": "Blending opaque 8-bit colours gives the nearest bytes", "statement": "Blending two opaque 8-bit RGB colours with any of the nineteen component-wise modes that follow their usual definition (all but color burn, soft light, vivid light and dissolve) returns, in binary32, the byte nearest to 255 * B(s/255, d/255) cut to [0,255] in every channel, whatever the region flags, and an opaque colour in the same RGB space.", "quantifier": "all 2^48 pairs of opaque 8-bit colours, 19 modes, all region flags", "why_tests_cant": "A rounding error of one unit in the last place moves a result across a half (multiply, dodge, divide) or flips a threshold (hard mix of complementary bytes, hard light at 127/128); only single pairs of bytes would show it.", "anchors": ["ColorMagic/manipulation/color_blend.h:662-789", "ColorMagic/manipulation/color_blend.cpp", "ColorMagic/manipulation/base_color_blend.h:19-68", "ColorMagic/manipulation/color_converter.cpp:83-86", "ColorMagic/manipulation/color_converter.cpp:113-116"]}
{"id": "C160", "title": "Porter-Duff operators keep opaque 8-bit colours exactly", "statement": "For two opaque 8-bit RGB colours the operators src, atop, over and in return exactly the bytes of the source, and dest, dest_atop, dest_over and dest_in exactly the bytes of the destination, opaque, in binary32.", "quantifier": "all 2^48 pairs of opaque 8-bit colours, eight operators", "why_tests_cant": "The colours go through floats in [0,1], three products, a sum and a division; a lost byte would show for single values only.", "anchors": ["ColorMagic/manipulation/porter_duff.cpp:4-146", "ColorMagic/manipulation/base_color_blend.h:19-68", "ColorMagic/manipulation/color_converter.cpp:113-116"]}
{"id": "C161", "title": "8-bit colours hold whole numbers", "statement": "The components of an 8-bit colour produced from 8-bit colours with whole components are whole numbers.", "quantifier": "all 8-bit colours", "why_tests_cant": "False: the conversion to 8-bit grey divides the sum of the channels by 3 without rounding, so two thirds of all 8-bit colours get a fractional grey, and converting that back to 8-bit RGB copies the fraction into all channels.", "anchors": ["ColorMagic/manipulation/color_converter.cpp:46-50", "ColorMagic/manipulation/color_converter.cpp: grey_true_to_rgb_true"]}
{"id": "C162", "title": "Converting to 8-bit RGB yields whole bytes", "statement": "Converting a colour of any type other than the 8-bit ones to 8-bit RGB returns whole numbers from 0 to 255, in binary32.", "quantifier": "all colours of 13 types, all RGB spaces with an invertible matrix, every powf", "why_tests_cant": "Some paths go through four conversions with powers and trigonometric functions that may return anything; only the last step rounds.", "anchors": ["ColorMagic/manipulation/color_converter.cpp:113-116", "ColorMagic/manipulation/color_converter.cpp:317-320", "ColorMagic/manipulation/color_converter.cpp: to_rgb_true"]}
{"id": "C163", "title": "8-bit colours of every preset RGB space survive Lab", "statement": "Converting an 8-bit RGB colour of a preset RGB space to Lab and back returns the same bytes in binary32.", "quantifier": "all preset RGB spaces, all 8-bit colours, every accurate powf", "why_tests_cant": "False: the Lab coordinates are cut to [-128,128], and pure green of Adobe RGB has a of about -138. Its red channel comes back between 50 and 70 instead of 0. Tests with sRGB colours never see it, because all of sRGB fits (C158).", "anchors": ["ColorMagic/manipulation/color_converter.cpp:922-935", "ColorMagic/manipulation/color_converter.cpp:1165-1175", "ColorMagic/spaces/lab.cpp", "ColorMagic/spaces/rgb_color_space_definition.h:308"]}
{"id": "C164", "title": "Blending translucent 8-bit colours is accurate", "statement": "For 8-bit RGB colours with alphas a = i/255 and b = j/255, blending with any of the nineteen modes that follow their definition returns in binary32 the byte nearest to 255 times the coverage sa + da + ab as alpha (sa = a(1-b), da = b(1-a), or 0 where the area is not used), and in every channel a byte at most 1/2 + 1/30 from 255 * (sa*s + da*d + ab*B(s,d)) / coverage cut to [0,255] - the nearest byte except next to a tie -, and zero where nothing is covered.", "quantifier": "all 2^64 pairs of 8-bit RGBA colours, 19 modes, all region flags", "why_tests_cant": "One minus an almost opaque alpha loses most of its digits and the division by a small coverage magnifies what is left; divide reaches 255 before the cut. Random colours hardly ever meet these corners.", "anchors": ["ColorMagic/manipulation/color_blend.h:662-789", "ColorMagic/manipulation/base_color_blend.h:19-68", "ColorMagic/spaces/color_base.h:207-215", "ColorMagic/manipulation/color_converter.cpp:83-86", "ColorMagic/manipulation/color_converter.cpp:113-116"]}
{"id": "C165", "title": "Porter-Duff operators on translucent 8-bit colours are accurate", "statement": "For 8-bit RGB colours with alphas i and j of 255 every Porter-Duff operator returns in binary32 the nearest byte to Fa*i + Fb*j as alpha (with the fractions Fa, Fb of Porter and Duff), in every channel a byte at most 0.51 from the alpha-weighted mean of source and destination, and zero where nothing is covered.", "quantifier": "all 2^64 pairs of 8-bit RGBA colours, twelve operators", "why_tests_cant": "The weights lose digits for alphas next to 255, and the division by a small alpha magnifies the loss.", "anchors": ["ColorMagic/manipulation/porter_duff.cpp:4-218", "ColorMagic/manipulation/base_color_blend.h:19-68", "ColorMagic/spaces/color_base.h:207-215", "ColorMagic/manipulation/color_converter.cpp:113-116"]}
{"id": "C166", "title": "Averages of 8-bit colours are exact up to one rounding", "statement": "The average of 1 to 65793 colours of type 8-bit RGB or 8-bit grey with whole components is, component by component, the exact mean rounded once to binary32: it is within 2^-16 of the mean, a whole number exactly where the number of colours divides the sum, and the same for every order of the colours. With include_alpha the alpha is within 1/20000 of the mean alpha and exact where that is whole; without it, it is the alpha of the first colour.", "quantifier": "all lists of up to 65793 8-bit colours, both alpha modes", "why_tests_cant": "The float sum of many colours may round at every step; that it never does below 2^24, and that the order cannot matter, needs an argument about all lists.", "anchors": ["ColorMagic/manipulation/color_calculation.cpp:522-535", "ColorMagic/manipulation/color_calculation.cpp:552-563", "ColorMagic/spaces/rgb_truecolor.cpp", "ColorMagic/spaces/grey_truecolor.cpp"]}
{"id": "C167", "title": "The average of equal 8-bit colours is that colour", "statement": "The average of any number of equal 8-bit colours with whole components has the same components.", "quantifier": "all 8-bit colours, all numbers of colours", "why_tests_cant": "False: it holds for up to 65793 colours, but the float sum then passes 2^24 and loses its last bit. The average of 65795 white pixels is 255 - 2^-16. Small test lists never reach the limit; a picture of 257 by 257 pixels does.", "anchors": ["ColorMagic/manipulation/color_calculation.cpp:522-535", "ColorMagic/manipulation/color_calculation.cpp:552-563"]}
{"id": "C168", "title": "Euclidean distances of 8-bit colours are accurate in binary32", "statement": "For two 8-bit RGB colours, euclidean_distance returns a finite float within 2^-19 of the Euclidean distance of their bytes divided by 255, and euclidean_distance_squared (not in CIELUV) one within 2^-17 of its square, whatever pow rounds to within 8 units in the last place. euclidean_distance is 0 exactly when the bytes are equal.", "quantifier": "all pairs of byte triples (2^48), all memory states holding them, all calculation-space arguments, all pow functions that square with relative error at most 2^-20 and give 0 at 0", "why_tests_cant": "2^48 pairs cannot be enumerated, and a test sees one libm; the bound follows each rounding of the division by 255, the subtraction, the square, the sum and the root.", "anchors": ["ColorMagic/manipulation/color_distance.cpp:5-43", "ColorMagic/spaces/rgb_truecolor.cpp", "ColorMagic/manipulation/color_converter.cpp:113-116"]}
{"id": "C169", "title": "Distances of 8-bit colours are ranked correctly", "statement": "If the bytes of one pair of 8-bit RGB colours are strictly nearer to each other than the bytes of another pair, then the binary32 euclidean_distance (and euclidean_distance_squared, not in CIELUV) of the first pair is strictly smaller: a nearest-colour search over 8-bit colours never picks a wrong or tied entry because of rounding.", "quantifier": "all quadruples of byte triples (2^96), all memory states, all calculation-space arguments, all pow functions as in C168", "why_tests_cant": "The claim compares two rounded results whose exact values may differ by only 4.4e-6; no enumeration of the 2^96 cases is possible.", "anchors": ["ColorMagic/manipulation/color_distance.cpp:5-43"]}
{"id": "C170", "title": "Distances of 8-bit colours are symmetric to the last bit", "statement": "For two 8-bit RGB colours, swapping the arguments of euclidean_distance or euclidean_distance_squared (not in CIELUV) returns the identical binary32 number, provided pow(-x, 2) and pow(x, 2) are identical.", "quantifier": "all pairs of byte triples, all memory states holding them, all calculation-space arguments, all even pow functions", "why_tests_cant": "Bit equality over 2^48 pairs, including the signs of zero differences, for every libm with an even square.", "anchors": ["ColorMagic/manipulation/color_distance.cpp:5-43"]}
{"id": "C171", "title": "CIE76 tells all 8-bit sRGB colours apart", "statement": "For two 8-bit sRGB colours with different bytes, cielab_delta_e_cie76 returns a finite float of at least 2^-14: rounding never makes two different 8-bit colours coincide in CIELAB or their distance vanish, overflow or become NaN.", "quantifier": "all pairs of different byte triples (2^48), all memory states holding them, all pow functions with a relative error of at most 2^-20", "why_tests_cant": "The smallest distance occurs somewhere among 2^48 pairs, and the conversion runs through a curve, a matrix and a cube root that all round; the claim holds for every libm within the bound.", "anchors": ["ColorMagic/manipulation/color_distance.cpp:63-80", "ColorMagic/manipulation/color_converter.cpp", "ColorMagic/spaces/rgb_color_space_definition.h"]}
{"id": "C172", "title": "Brighter 8-bit sRGB colours have larger XYZ values and lightness", "statement": "If no byte of one 8-bit sRGB colour exceeds the corresponding byte of another and the two differ, then to_xyz gives the first a strictly smaller X, a strictly smaller Y and a strictly smaller Z than the second, and to_lab gives it a strictly smaller L. Rounding never merges or reverses neighbouring levels.", "quantifier": "all comparable pairs of byte triples, all memory states holding them, all pow functions with a relative error of at most 2^-20", "why_tests_cant": "There are about 2^45 comparable pairs and the pow function need not be monotone; the claim holds for every libm within the bound.", "anchors": ["ColorMagic/manipulation/color_converter.cpp", "ColorMagic/spaces/rgb_color_space_definition.h"]}
{"id": "C173", "title": "The optimised HSL conversion agrees with the version it replaced", "statement": "hsl_to_rgb_deep computes each channel with the one-line helper; the older code kept in a comment, with the three-argument helper, computes the same red, green and blue in exact arithmetic, for every hue, saturation and lightness.", "quantifier": "all HSL colours, exact arithmetic, all memory states", "why_tests_cant": "The two formulas branch at different hues; equality over the whole cylinder needs a proof.", "anchors": ["ColorMagic/manipulation/color_converter.cpp:650-680", "ColorMagic/manipulation/color_converter.cpp:1378-1407"]}
{"id": "C174", "title": "round_float_to_n_decimals rounds to the nearest decimal", "statement": "The helper returns a multiple of 10^-n that is nearest to its argument, for every float.", "quantifier": "all floats and all n", "why_tests_cant": "The failures depend on the sign, on the range of int and on a double rounding next to 1/2.", "anchors": ["ColorMagic/manipulation/color_converter.cpp:1444-1448"]}
{"id": "C175", "title": "clamp_float and transform_range do what their names say", "statement": "clamp_float returns a finite float between its finite bounds, the argument itself if it is between them, the lower bound for NaN and minus infinity and the upper one for infinity. In exact arithmetic transform_range is the affine map between the ranges, keeps values inside, and is undone by the transformation back; an empty old range never gives a finite float.", "quantifier": "all floats including NaN and infinities; all ranges", "why_tests_cant": "All special values and all ranges.", "anchors": ["ColorMagic/manipulation/color_converter.cpp:1450-1460"]}
{"id": "C176", "title": "Delta E 2000 never fails", "statement": "If atan2f of finite floats is between -4 and 4 and powf stays within coarse bounds for the exponents 2 and 7, cielab_delta_e_cie00 returns without exception or undefined behaviour (its conversions of hue angles to int never overflow), and changes no other object than its two arguments.", "quantifier": "all pairs of colours of any type (with RGB space where the conversion needs it), all parameters including NaN, all such C libraries, binary32", "why_tests_cant": "The cast to int is undefined for NaN and for large floats; excluding them needs bounds on every intermediate float.", "anchors": ["ColorMagic/manipulation/color_distance.cpp:103-164"]}
{"id": "C177", "title": "The weighted distance of 8-bit colours is accurate and symmetric in binary32", "statement": "If powf squares with a relative error of at most 2^-20, euclidean_distance_weighted of two 8-bit RGB colours returns a finite float within 2^-18 of the exact redmean formula, and 0 if and only if the bytes are equal. If powf(-x, 2) = powf(x, 2), swapping the colours does not change a bit of the result.", "quantifier": "all 2^48 pairs of 8-bit RGB colours, all such C libraries, binary32", "why_tests_cant": "2^48 pairs.", "anchors": ["ColorMagic/manipulation/color_distance.cpp:45-61"]}
{"id": "C178", "title": "Sums, mixtures and differences are accurate in binary32", "statement": "add, mix and subtract of two colours of a type that is combined component by component return a colour of that type and of the first colour's RGB space, in which every component is within 2^-20 of its range of the exact weighted formula (root of the weighted sum of squares for RGB, weighted sum otherwise, difference for subtract), cut to the range. For RGB sums, powf must square with a relative error of at most 2^-20.", "quantifier": "all pairs of colours of the eight plain types, all weights in [0,1], all such C libraries, all memory states, binary32", "why_tests_cant": "All floats as components and weights; the square root of a small weighted sum magnifies absolute errors.", "anchors": ["ColorMagic/manipulation/color_calculation.cpp:42-103", "ColorMagic/manipulation/color_calculation.cpp:241-300", "ColorMagic/manipulation/color_calculation.cpp:377-426"]}
{"id": "C179", "title": "With weight 1, whole bytes are added and subtracted exactly and saturate", "statement": "subtract of two 8-bit RGB or grey colours with weight 1 returns exactly max(0, m - n) for the bytes m and n in each component; add of two 8-bit grey colours with weights 1 returns exactly min(255, m + n).", "quantifier": "all pairs of 8-bit colours, all memory states, binary32", "why_tests_cant": "2^48 pairs; no tolerance is left for rounding.", "anchors": ["ColorMagic/manipulation/color_calculation.cpp:68-77", "ColorMagic/manipulation/color_calculation.cpp:377-411"]}
{"id": "C180", "title": "Schemes of two, three and six colours exchange and mirror RGB channels", "statement": "Turning the hue by 60 degrees maps the channels (r, g, b) to (s - g, s - b, s - r), s = largest + smallest channel. The k-th further colour of create_combination with 2, 3 or 6 colours has exactly the channels after k * 6/n such turns (complement: s - r, s - g, s - b; triad: the cyclic exchanges), with the RGB space kept. create_complimentary applied twice gives the channels back. Colours whose hue lies in the last degree before 360, where the library cuts hues, are excepted.", "quantifier": "all deep RGB colours outside the last degree of hue, all memory states, exact arithmetic", "why_tests_cant": "Six sextants, wrapping at 360 degrees and a continuum of colours.", "anchors": ["ColorMagic/manipulation/color_combinations.cpp:4-44"]}
{"id": "C181", "title": "Schemes of 8-bit colours are exact in binary32", "statement": "For every 8-bit RGB colour, the k-th further colour of create_combination with 2, 3 or 6 colours holds exactly the bytes after k * 6/n turns of the hue by 60 degrees (s - g, s - b, s - r each time). create_complimentary applied twice gives the three bytes back. Colours in the last degree of hue are excepted.", "quantifier": "all 2^24 8-bit RGB colours outside the last degree of hue, all memory states, binary32", "why_tests_cant": "The hue passes through division, rounding, addition and reduction modulo 360; a hue that lands just below 360 instead of on 0 would change the result. 2^24 colours, three schemes.", "anchors": ["ColorMagic/manipulation/color_combinations.cpp:4-44", "ColorMagic/manipulation/color_converter.cpp:166-190"]}
{"id": "C182", "title": "Converting in two steps along a route gives what converting directly gives", "statement": "When a type M lies on the library's route from X to Y (deep RGB between RGB/grey, hue and CIE types; XYZ in front of every CIE type; Lab next to LCh(ab), CIELUV next to LCh(uv); 8-bit RGB in front of 8-bit grey), converting a colour of type X first to M and then the result to Y gives the same pointer, the same memory and the same outcome as converting to Y directly.", "quantifier": "all colours of all types, all 314 triples of types on a route, all memory states, binary32 and exact arithmetic", "why_tests_cant": "Hundreds of composed conversions, each a separate function; one that calls a wrong neighbour or another order still returns a plausible colour of the right type.", "anchors": ["ColorMagic/manipulation/color_converter.cpp:58-1344", "ColorMagic/manipulation/color_converter.cpp:1480-1999"]}
{"id": "C183", "title": "Presets have the published values", "statement": "The chromaticities of the 40 preset white points are those of the CIE standard illuminants for the 2 and 10 degree observers within 0.0005. Each of the 20 preset RGB spaces is constructed without failure and has, within 0.0005, the published primaries and white point, and the published decoding function (BT.2020 and ROMM RGB: see the next property).", "quantifier": "all 40 white points, all 20 spaces, all values in [0,1] of the curves; exact arithmetic", "why_tests_cant": "A wrong digit in a table shifts every colour of that space a little and looks plausible; no test compares the tables.", "anchors": ["ColorMagic/spaces/white_point.h:228-468", "ColorMagic/spaces/rgb_color_space_definition.h:286-447"]}
{"id": "C184", "title": "Preset gamma curves are the published transfer functions", "statement": "gamma_correction of each preset is the published function from linear light to stored values and inverse_gamma_correction the published function back, on [0,1]: sRGB (IEC 61966-2-1), the power laws 1.8, 2.2, 2.6, 2.8 and 563/256, UHDTV (BT.2020) and ROMM (ISO 22028-2).", "quantifier": "all values in [0,1], all preset curves, exact arithmetic", "why_tests_cant": "The round trip of a curve and its inverse stays correct when both are exchanged, so round-trip tests cannot see it.", "anchors": ["ColorMagic/spaces/gamma.h:379-484"]}
{"id": "C185", "title": "RGB, XYZ and xyY convert by the matrix and chromaticity formulas, with clipping", "statement": "Deep RGB to XYZ: the inverse gamma function of each channel, cut to [0,1], times the matrix of the RGB space, cut to [0,100]. XYZ to deep RGB: the inverse matrix times (X,Y,Z), each cut to [0,1], gamma corrected, cut to [0,1] - for every XYZ colour, also outside the gamut. xyY to XYZ: (xY/y, Y, (1-x-y)Y/y) cut to [0,100], and black for y = 0. Alpha and RGB space are kept.", "quantifier": "all colours, all RGB spaces with a gamma curve, all memory states, exact arithmetic", "why_tests_cant": "A continuum of colours and spaces; tests use colours within the gamut.", "anchors": ["ColorMagic/manipulation/color_converter.cpp:214-220", "ColorMagic/manipulation/color_converter.cpp:838-848", "ColorMagic/manipulation/color_converter.cpp:992-1003"]}
{"id": "C186", "title": "Greys have no colour in any type", "statement": "A deep RGB colour with three equal channels v becomes a multiple of the white point in XYZ; hue 0, saturation 0 and value, lightness or intensity v in HSV, HSL and HSI; hue 0, chroma 0 and luma v in HCY; (0,0,0,1-v) in CMYK for v > 0; a = b = 0 in Lab; u = v = 0 in CIELUV.", "quantifier": "all greys, all proper RGB spaces, all memory states, exact arithmetic", "why_tests_cant": "All greys, all spaces; a tiny wrong constant gives a slight cast.", "anchors": ["ColorMagic/manipulation/color_converter.cpp:129-236", "ColorMagic/manipulation/color_converter.cpp:899-935"]}
{"id": "C187", "title": "Over and in may be grouped at will", "statement": "Composing three layers with clear, source, destination, over, in or their duals gives the same components and alpha whichever pair is composed first; for each of the other five operators there are three layers for which it matters. A fully transparent layer composed with over, dest_over or xor leaves the other layer as it is, from either side. A layer over itself keeps its components and gets alpha 1-(1-a)^2.", "quantifier": "all triples of deep RGB colours of one RGB space, all alphas in [0,1], all memory states, exact arithmetic", "why_tests_cant": "Three colours with three alphas; existing tests composite two fixed colours.", "anchors": ["ColorMagic/manipulation/porter_duff.cpp:4-218", "ColorMagic/manipulation/base_color_blend.h:19-68"]}
{"id": "C188", "title": "Exchanging the two layers of a symmetric blend changes nothing, to the last bit", "statement": "Multiply, screen, darken, lighten, linear dodge, linear burn, plus lighter, plus darker, difference and exclusion give the same colour with source and destination exchanged (and the two region flags exchanged), overlay gives what hard light gives with the layers exchanged, and each Porter-Duff operator what its dual gives with the layers exchanged - in exact arithmetic (also hard mix) and bit for bit in binary32, for every alpha including NaN. Darken and lighten in binary32: for components that are not the negative zero.", "quantifier": "all pairs of deep RGB colours of one RGB space, all alphas, all flags, all memory states", "why_tests_cant": "Bitwise equality for all pairs of floats cannot be sampled.", "anchors": ["ColorMagic/manipulation/color_blend.h:662-789", "ColorMagic/manipulation/color_blend.cpp:29-441", "ColorMagic/manipulation/porter_duff.cpp:4-218", "ColorMagic/manipulation/base_color_blend.h:19-68"]}
{"id": "C189", "title": "Hard mix treats the layers alike in binary32", "statement": "hard_mix of two opaque colours does not depend on their order.", "quantifier": "all pairs of opaque deep RGB colours, binary32", "why_tests_cant": "The exceptions need a component below 2^-24 against one within one ulp of 1.", "anchors": ["ColorMagic/manipulation/color_blend.h:753-757", "ColorMagic/manipulation/color_blend.cpp:299-315"]}
{"id": "C190", "title": "Delta E 94 never exceeds Delta E 76", "statement": "With factors kL, kC, kH >= 1 and k1, k2 >= 0 the CIE 1994 difference is at most the CIE 1976 difference, and the latter at most max(kL, kC(1+182 k1), kH(1+182 k2)) times the former (9.19 times for the graphic arts parameters); both leave the same heap. If the reference is neutral and the factors are 1, the two are equal.", "quantifier": "all pairs of colours of all types, all parameters as stated, all memory states, exact arithmetic", "why_tests_cant": "Six real inputs and five parameters.", "anchors": ["ColorMagic/manipulation/color_distance.cpp:63-101"]}
{"id": "C191", "title": "Adaptations can be chained and undone", "statement": "For the simplified methods, adapting an XYZ colour from white A to B and then to C gives what adapting from A to C gives, within 100 ppm times the gains of the two steps, if the intermediate colour is not clipped; adapting to B and back to A gives the original within (15 + 100 k1 k2) ppm, and exactly for XYZ scaling.", "quantifier": "all XYZ colours, all white points with non-vanishing cone responses, all simplified methods, all memory states, exact arithmetic", "why_tests_cant": "All colours and triples of white points; a wrong digit in one of the fourteen hard-coded matrices only shows in the inverse direction.", "anchors": ["ColorMagic/manipulation/chromatic_adaptation.cpp:4-100", "ColorMagic/manipulation/chromatic_adaptation.cpp:364-399"]}
{"id": "C192", "title": "The blend modes are ordered from dark to bright", "statement": "No component of the first mode's result exceeds that of the second, with the same alpha: linear burn, multiply, darken, normal, lighten, screen, linear dodge in this order; overlay, hard light and pin light between multiply and screen; subtract, difference, exclusion, screen in this order and difference below lighten; linear light between linear burn and linear dodge. In binary32 without any exception: multiply, darken, normal, lighten in this order; multiply below overlay, hard light and pin light; subtract below difference below lighten.", "quantifier": "all pairs of deep RGB colours of one RGB space, all alphas in [0,1], all flags, all memory states; exact and binary32", "why_tests_cant": "A comparison of two modes at all pairs of colours and alphas.", "anchors": ["ColorMagic/manipulation/color_blend.h:647-789", "ColorMagic/manipulation/color_blend.cpp:29-441", "ColorMagic/manipulation/base_color_blend.h:19-68"]}
{"id": "C193", "title": "The whole order of the blend modes also holds in binary32", "statement": "lighten <= screen <= linear dodge and linear burn <= multiply hold in binary32 as well.", "quantifier": "all pairs of opaque deep RGB colours, binary32", "why_tests_cant": "The exceptions need components below 2^-22.", "anchors": ["ColorMagic/manipulation/color_blend.h:647-789", "ColorMagic/manipulation/color_blend.cpp:29-441"]}
{"id": "C194", "title": "Brighter layers give brighter blends", "statement": "If no component of source or destination decreases and the alphas stay, no component of the result decreases, for multiply, screen, overlay, hard light, darken, lighten, linear and colour dodge, linear burn, linear light, pin light, hard mix, plus lighter, plus darker and normal, with every setting of the region flags, exactly and in binary32; likewise for all Porter-Duff operators in binary32. The function of every other mode (colour burn, soft light, vivid light, difference, subtract, divide, exclusion) decreases somewhere.", "quantifier": "all quadruples of deep RGB colours of one RGB space, all alphas in [0,1], all memory states; exact and binary32", "why_tests_cant": "Relates two runs on all pairs of inputs; a branch with the wrong threshold breaks it only near the threshold.", "anchors": ["ColorMagic/manipulation/color_blend.h:647-789", "ColorMagic/manipulation/color_blend.cpp:29-441", "ColorMagic/manipulation/porter_duff.cpp:4-218", "ColorMagic/manipulation/base_color_blend.h:19-68"]}
{"id": "C195", "title": "Laws of determinant and inverse", "statement": "For the real number matrices of every size the library's operations satisfy: det(AB) = det A * det B, det of the transpose = det A, det(kA) = k^n det A, det of the identity = 1. An inverse on one side is the result of invert; inverting twice gives the matrix back, det(A^-1) = 1/det A, (AB)^-1 = B^-1 A^-1 and the inverse of the transpose is the transpose of the inverse. None of these operations changes its operands.", "quantifier": "all square matrices of all sizes over exact reals, all scalars", "why_tests_cant": "Algebraic identities over all sizes and all entries.", "anchors": ["ColorMagic/utils/matrix.h:363-480", "ColorMagic/utils/matrix.h:621-671"]}
{"id": "C196", "title": "Greys in binary32", "statement": "A deep RGB colour with three equal channels v converts to HSV, HSL, HSI and HCY as exactly (0, 0, v), alpha and RGB space kept. An HSV, HSL, HSI or HCY colour of saturation (chroma) 0 converts to three channels of exactly its third component, whatever its hue. In CMYK a grey has three equal inks, which are 0 unless the grey is below 2^-24, and it comes back with three equal channels within 2^-18. A grey byte survives RGB and three equal bytes survive grey exactly.", "quantifier": "all binary32 greys, all hues, all alphas, all memory states", "why_tests_cant": "2^30 greys times all hues in binary32; a formula that is right for real numbers may leave a tint after rounding.", "anchors": ["ColorMagic/manipulation/color_converter.cpp:46-50", "ColorMagic/manipulation/color_converter.cpp:129-212", "ColorMagic/manipulation/color_converter.cpp:247-250", "ColorMagic/manipulation/color_converter.cpp:465-771"]}
{"id": "C197", "title": "Deep greys survive a trip through RGB in binary32", "statement": "A deep grey converted to deep RGB and back to deep grey is the same grey.", "quantifier": "all binary32 greys", "why_tests_cant": "The average of three equal floats differs from the float only for some mantissas.", "anchors": ["ColorMagic/manipulation/color_converter.cpp:123-127", "ColorMagic/manipulation/color_converter.cpp:322-325"]}
{"id": "C198", "title": "Accuracy of the RGB adjustments in binary32", "statement": "saturate_in_rgb_space and luminate_in_rgb_space applied in binary32 to a deep RGB colour with a percentage in [-8, 8] give channels within 2^-17 of the clamped exact formulas and keep alpha and RGB space. An 8-bit RGB colour gets bytes within 1/2 + 1/500 of the exact values and keeps its alpha byte. Percentage 0 returns the same values and bytes exactly, percentage -1 of the luminance returns exact black, and a larger percentage or a brighter colour never gives a darker result.", "quantifier": "all deep and 8-bit RGB colours, all percentages in [-8, 8] (monotonicity: [-1, 8]), all memory states", "why_tests_cant": "2^96 colours times 2^31 percentages; monotonicity under rounding cannot be sampled.", "anchors": ["ColorMagic/manipulation/color_adjustments.cpp:9-19", "ColorMagic/manipulation/color_adjustments.cpp:43-53"]}
{"id": "C199", "title": "Taking the saturation away leaves a grey in binary32", "statement": "saturate_in_hsl_space by -1 turns a deep RGB colour into three channels of exactly the same value, within 2^-22 of the mean of the largest and smallest channel, and an 8-bit RGB colour into three equal bytes. saturate_in_rgb_space by -1 turns 8-bit RGB into three equal bytes, the luma rounded to the nearest integer, unless the luma is half way between two integers.", "quantifier": "all deep and 8-bit RGB colours, all memory states", "why_tests_cant": "A tint of one rounding error may appear for a few of the 2^96 colours only.", "anchors": ["ColorMagic/manipulation/color_adjustments.cpp:9-19", "ColorMagic/manipulation/color_adjustments.cpp:26-36", "ColorMagic/manipulation/color_converter.cpp:174-198"]}
{"id": "C200", "title": "Desaturated 8-bit colours are always grey", "statement": "saturate_in_rgb_space by -1 turns every 8-bit RGB colour into three equal bytes.", "quantifier": "all 8-bit RGB colours", "why_tests_cant": "Fails only where the luma is half way between two bytes, about one colour in 2000.", "anchors": ["ColorMagic/manipulation/color_adjustments.cpp:9-19"]}
{"id": "C201", "title": "Predefined colours are the CSS named colours", "statement": "The table of predefined colours consists of the 140 named colours of CSS with their published RGB bytes, opaque, and Transparent (white with alpha 0). Creating each of them gives an 8-bit RGB colour with exactly those bytes.", "quantifier": "all 141 entries", "why_tests_cant": "A single wrong digit in one constant is invisible unless every entry is compared with the published table.", "anchors": ["ColorMagic/utils/colors.h:29-171", "ColorMagic/utils/colors.h:188"]}
{"id": "C202", "title": "How many objects each operation leaves behind", "statement": "Nothing is ever freed, and the number of colour objects an operation creates is determined by the lengths of the shortest conversion chains alone: an RGB adjustment of a colour of type X creates chain(X, deep RGB) + 1 + chain(deep RGB, X) objects, an HSL adjustment chain(X, HSL) + chain(HSL, X), every Porter-Duff operator and channel blend mode chain(X1, deep RGB) + chain(X2, deep RGB) + 1 + chain(deep RGB, X1), the hue/chroma/luma modes the same with HCY, a combination of n colours chain(X, HSL) + (n-1)(1 + chain(HSL, X)), an analogous scheme the same with n = 3, a chromatic adaptation chain(X, XYZ) + 1 + chain(XYZ, X) colours and one RGB space definition.", "quantifier": "all colours of every type but LCh, all arguments that are accepted, all memory states", "why_tests_cant": "Values returned by the functions do not show temporary objects; the counts range over all pairs of types and all sizes up to 360.", "anchors": ["ColorMagic/manipulation/color_adjustments.cpp:9-70", "ColorMagic/manipulation/porter_duff.cpp:4-218", "ColorMagic/manipulation/color_combinations.cpp:24-59", "ColorMagic/manipulation/chromatic_adaptation.cpp:364-399"]}
{"id": "C203", "title": "Exchanging the two colours of a sum or mixture changes nothing", "statement": "add(c1, c2, w1, w2) and add(c2, c1, w2, w1) have the same components, and the same alpha if it is included, for the eight types that are combined component by component and for HSV, in exact arithmetic and bit for bit in binary32, whatever powf, cos, sin and atan2 return. Likewise mix(c1, c2, w) and mix(c2, c1, 1 - w), exactly for every weight and bit for bit in binary32 for every weight from 1/2 to 1.", "quantifier": "all pairs of colours of the same type, all weights in [0,1], all math libraries", "why_tests_cant": "Equality to the last bit over all pairs of colours and weights cannot be sampled; the restriction to weights of at least 1/2 is where 1 - w is computed without rounding.", "anchors": ["ColorMagic/manipulation/color_calculation.cpp:42-103", "ColorMagic/manipulation/color_calculation.cpp:241-300"]}
{"id": "C204", "title": "Larger components give larger sums and mixtures", "statement": "If no component of either colour decreases, no component of add or mix decreases; if no component of the first colour decreases and none of the second increases, no component of subtract decreases - exactly and in binary32, for the eight types combined component by component (for RGB sums powf must square accurately, not be negative and not fall). In exact arithmetic each component of a mixture lies between those of the two colours; in binary32, weights 1 and 0 give exactly the first and the second colour for all but the RGB types.", "quantifier": "all pairs of pairs of ordered colours, all weights in [0,1]", "why_tests_cant": "Monotonicity relates pairs of runs; a violation by one rounding would be missed by sampling.", "anchors": ["ColorMagic/manipulation/color_calculation.cpp:42-103", "ColorMagic/manipulation/color_calculation.cpp:241-300", "ColorMagic/manipulation/color_calculation.cpp:377-426"]}
{"id": "C205", "title": "Computed distances of arbitrary colours are accurate, symmetric and nearly satisfy the triangle inequality", "statement": "In binary32, euclidean_distance and cielab_delta_e_cie76 of any two distinct colours of any types return a finite number that is within 2^-20 of its value, plus 2^-28, of the Euclidean distance of the stored components of the two (converted) colours; it is not negative, and 0 if all components agree. euclidean_distance_squared is within 2^-19 of its value, plus 2^-57. Exchanging colours of the compared type gives the same result bit for bit if powf(-x, 2) = powf(x, 2). The distance of two colours is at most the sum of their distances from a third one, times 1 + 2^-18, plus 2^-26, and if one colour is nearer to a third than another by this margin its computed distance is smaller. powf is assumed to square accurately.", "quantifier": "all pairs and triples of colours, all types, all math libraries that square accurately", "why_tests_cant": "Lab and deep RGB colours are pairs of triples of arbitrary binary32 numbers; the relative bound, the order and the triangle inequality relate several runs.", "anchors": ["ColorMagic/manipulation/color_distance.cpp: euclidean_distance_squared, euclidean_distance, cielab_delta_e_cie76"]}
{"id": "C206", "title": "Premultiplying by alpha and dividing again in binary32", "statement": "For every reachable colour with alpha in [0,1], alpha_multiply computes each product with one rounding, never enlarges a component, changes nothing for alpha 1 and gives zeros for alpha 0. With alpha of at least 2^-20, alpha_multiply followed by alpha_divide restores each component up to 3 * 2^-24 of its value plus 2^-39, and exactly for alpha 1; whole bytes come back within 2^-14 for alphas of at least 1/256; with alpha 0 all components end as 0.", "quantifier": "all reachable colours of all types, all alphas in [0,1]", "why_tests_cant": "The pairs of component and alpha are 2^60 and more; the bound is relative.", "anchors": ["ColorMagic/spaces/color_base.h:195-201", "ColorMagic/spaces/color_base.h:207-215"]}
{"id": "C207", "title": "Premultiplying by alpha and dividing again keeps the components in range", "statement": "After alpha_multiply and alpha_divide the components of a colour with alpha in (0,1] are still in the declared range in binary32.", "quantifier": "all reachable colours, all alphas", "why_tests_cant": "Only a few combinations of component and alpha round upwards twice.", "anchors": ["ColorMagic/spaces/color_base.h:195-201", "ColorMagic/spaces/color_base.h:207-215"]}
{"id": "C208", "title": "RGB to HSV, HSL, HSI, HCY and CMYK in single precision", "statement": "Converting a deep RGB colour in binary32 gives the textbook values up to rounding: hue within 1/16384 degree of the hexagonal hue (cut at 359), HSV saturation within 2^-22 and value exact, HCY chroma within 2^-23 and luma within 2^-21, HSL lightness within 2^-22, HSI intensity within 2^-22 and saturation within 2^-21 (largest channel at least 2^-30). The HSL saturation times 1-|max+min-1| is within 2^-18, and the inks times the largest channel within 2^-19, of the exact ones. Alpha and space are kept.", "quantifier": "all binary32 deep RGB colours, all math library results", "why_tests_cant": "The worst rounding errors occur at unknown colours among 2^90; sampling cannot bound them.", "anchors": ["ColorMagic/manipulation/color_converter.cpp:129-212", "ColorMagic/manipulation/color_converter.cpp: hue_from_rgb_helper"]}
{"id": "C209", "title": "HSV, HSL, HCY and CMYK to RGB in single precision", "statement": "Converting an HSV, HSL or HCY colour to deep RGB in binary32 gives, in every channel, the published value within 2^-17; a CMYK colour gives (1-ink)(1-k) within 2^-22. Alpha (except for HSL black) and space are kept.", "quantifier": "all binary32 HSV, HSL, HCY and CMYK colours, all math library results", "why_tests_cant": "The worst rounding errors occur at unknown colours among 2^90; sampling cannot bound them, and the sector boundaries of the hue are where formulas jump.", "anchors": ["ColorMagic/manipulation/color_converter.cpp:392-398", "ColorMagic/manipulation/color_converter.cpp:554-578", "ColorMagic/manipulation/color_converter.cpp:650-680", "ColorMagic/manipulation/color_converter.cpp:751-771"]}
{"id": "C210", "title": "Porter-Duff operators on deep colours are accurate in binary32", "statement": "For deep colours with alphas in [0,1] the binary32 result of each operator has an alpha within 2^-20 of the exact coverage Fa*a + Fb*b, and every component lies in [0,1] and contributes to the covered area the exact amount Fa*a*s + Fb*b*d up to 2^-19; hence the component is within 2^-19 divided by the coverage.", "quantifier": "all pairs of deep colours of the same space, all alphas in [0,1] down to subnormal ones, all operators", "why_tests_cant": "The division by a computed alpha loses accuracy for thin coverage; the bad inputs are rare pairs of tiny alphas.", "anchors": ["ColorMagic/manipulation/porter_duff.cpp:4-218", "ColorMagic/manipulation/base_color_blend.h:19-68", "ColorMagic/spaces/color_base.h:207-215"]}
{"id": "C211", "title": "Continuous blend modes on deep colours are accurate in binary32", "statement": "For normal, multiply, screen, overlay, hard light, darken, lighten, pin light, difference and color dodge with any use of the source and destination regions, the result has an alpha within 2^-20 of the exact coverage, and every component lies in [0,1] and contributes the exact mixture of source, destination and textbook blend value up to 2^-19.", "quantifier": "all pairs of deep colours of the same space, all alphas in [0,1], ten modes, all region flags", "why_tests_cant": "Branches at 1/2, quotients and the final division by alpha interact; sampling does not bound the error.", "anchors": ["ColorMagic/manipulation/color_blend.h:662-789", "ColorMagic/manipulation/base_color_blend.h:19-68", "ColorMagic/spaces/color_base.h:207-215"]}
{"id": "C212", "title": "Hue colours close to one another have close RGB colours", "statement": "Converting two HSV colours to deep RGB gives channels that differ by at most arc(h,h')/60 + |s-s'| + |v-v'|, where arc is the distance of the hues on the circle, plus 2^-16 in binary32: there is no jump at a sector boundary or at red. For HSL the bound is arc/60 + |s-s'|/2 + 2|l-l'|, for HCY arc/30 + |c-c'| + |y-y'|, for CMYK the largest change of an ink plus the change of the key (plus 2^-21).", "quantifier": "all pairs of colours of the model, in exact arithmetic and in binary32 with any math library", "why_tests_cant": "Continuity at the six boundaries concerns pairs of arbitrarily close colours; a test samples isolated colours and a jump between neighbouring floats goes unnoticed.", "anchors": ["ColorMagic/manipulation/color_converter.cpp:392-398", "ColorMagic/manipulation/color_converter.cpp:554-578", "ColorMagic/manipulation/color_converter.cpp:650-680", "ColorMagic/manipulation/color_converter.cpp:751-771"]}
{"id": "C213", "title": "Averages of colours are accurate in binary32", "statement": "The average of n colours (1 <= n <= 16384) of any type but the two 8-bit ones succeeds, has that type and the RGB space of the first colour, and every component is within (n+3) m 2^-24 of the mean of the components, where m is the largest absolute value the component may have. With include_alpha and alphas in [0, 1] the alpha is within (n+3) 2^-24 of the mean alpha (not for CMYK, see C57), without it the alpha is that of the first colour, exactly.", "quantifier": "all lists of up to 16384 binary32 colours of the thirteen types, all math library results", "why_tests_cant": "The worst accumulated rounding error of a long sum is reached for particular orders and values; tests average two or three colours.", "anchors": ["ColorMagic/manipulation/color_calculation.cpp:522-758"]}
{"id": "C214", "title": "The order of averaged colours matters only in the last places", "statement": "Averaging up to 16384 colours of a type other than the 8-bit ones in another order changes a component by at most 2 (n+3) m 2^-24, m being the largest absolute value of the component, and the average of n equal colours is within half of that of the colour. Exact equality holds in neither case: there are three deep greys whose average depends on the order and three equal deep greys whose average is a different grey.", "quantifier": "all lists of up to 16384 binary32 colours of the thirteen types and their permutations", "why_tests_cant": "Tests compare one order of two or three round values, for which nothing is lost.", "anchors": ["ColorMagic/manipulation/color_calculation.cpp:522-758"]}
{"id": "C215", "title": "Adjustments in HSL spread the RGB channels around their middle", "statement": "In exact arithmetic saturate_in_hsl_space(c, p), p other than 0, keeps the middle m of the largest and smallest channel of a deep RGB colour and multiplies the distance of every channel from m by 1 + p, but not below 0 and not beyond the point where a channel reaches 0 or 1. luminate_in_hsl_space(c, p) moves the middle to m (1 + p), cut to [0, 1], and scales the distances in proportion to the distance of the middle from the nearer end of [0, 1]. Where the hue lies in (359, 360) degrees, blue is first replaced by the value it gets from the stored hue 359 (C42).", "quantifier": "all deep RGB colours and all percentages, exact arithmetic", "why_tests_cant": "The relation to RGB is a law over all hues, both limits and all percentages; tests look at single colours in HSL.", "anchors": ["ColorMagic/manipulation/color_adjustments.cpp:26-36", "ColorMagic/manipulation/color_adjustments.cpp:60-70"]}
{"id": "C216", "title": "Adjustments in HSL are accurate in binary32", "statement": "In binary32, for a percentage in [-8, 8] other than 0, saturate_in_hsl_space changes a deep RGB colour into channels within 2^-15 of the exact spread of C215, and luminate_in_hsl_space into channels within 2^-16 + k 2^-19 of it, where k is the factor by which the exact spread grows. The RGB space is kept.", "quantifier": "all deep RGB colours, all binary32 percentages in [-8, 8], all math library results", "why_tests_cant": "Near black and white the saturation is a quotient of two tiny numbers; whether its error reaches the result needs a bound for all colours.", "anchors": ["ColorMagic/manipulation/color_adjustments.cpp:26-36", "ColorMagic/manipulation/color_adjustments.cpp:60-70"]}
{"id": "C217", "title": "XYZ to Lab is accurate in binary32", "statement": "For an XYZ colour whose coordinates do not exceed those of the white point of its RGB space (finite and positive), to_lab in binary32 gives L within 1/4000, a within 1/500 and b within 1/1250 of the CIE formula for the stored floats, each cut to the range of the type. powf is assumed accurate to 8 units in the last place.", "quantifier": "all XYZ colours up to white, all white points, all math libraries with an accurate powf", "why_tests_cant": "The formula has a cube root, a linear part and a switch between them at a rounded threshold; the worst case over all colours and white points cannot be sampled.", "anchors": ["ColorMagic/manipulation/color_converter.cpp:922-935", "ColorMagic/manipulation/color_converter.cpp:1409-1412"]}
{"id": "C218", "title": "XYZ to Lab and back is accurate in binary32", "statement": "For an XYZ colour up to the white point (coordinates of the white between 1/1000 and 100) whose exact a and b lie within 127.9 of 0, to_lab followed by to_xyz in binary32 returns every coordinate within 2^-16 times the white's coordinate. The RGB space is kept.", "quantifier": "all such XYZ colours and white points, all math libraries with an accurate powf", "why_tests_cant": "Errors of the cube root are multiplied by 116, 500 and 200 and divided again, and the two switches between line and root may disagree; only a proof covers every colour near them.", "anchors": ["ColorMagic/manipulation/color_converter.cpp:922-935", "ColorMagic/manipulation/color_converter.cpp:1165-1175", "ColorMagic/manipulation/color_converter.cpp:1414-1442"]}
{"id": "C219", "title": "XYZ to xyY and back is accurate in binary32", "statement": "For an XYZ colour with Y at least 10^-6, to_xyy in binary32 gives x and y within 2^-21 of X/(X+Y+Z) and Y/(X+Y+Z) and keeps Y unchanged; to_xyz of the result returns Y unchanged and X and Z within 2^-20 (X+Y+Z). The RGB space is kept.", "quantifier": "all XYZ colours with Y >= 10^-6, all memory states, binary32", "why_tests_cant": "z is recovered as 1 - x - y and divided by y, where rounding errors are amplified; the worst case over three floats cannot be sampled.", "anchors": ["ColorMagic/manipulation/color_converter.cpp:885-897", "ColorMagic/manipulation/color_converter.cpp:992-1003"]}
{"id": "C220", "title": "XYZ colours survive the way through xyY", "statement": "to_xyz(to_xyy(c)) is c for every XYZ colour c, in exact arithmetic.", "quantifier": "all XYZ colours", "why_tests_cant": "Colours with luminance 0 and other coordinates positive are legal values that tests of real surfaces never contain.", "anchors": ["ColorMagic/manipulation/color_converter.cpp:885-897", "ColorMagic/manipulation/color_converter.cpp:992-1003"]}
{"id": "C221", "title": "Generic add, mix and subtract are the overload of the first operand's type", "statement": "For a first operand of a supported type X and a legal weight, add, mix and subtract on color_base convert the first and then the second operand to X and call the overload for X on them in this order, with the same weights and alpha flag. The second operand may have any type or be null.", "quantifier": "all supported types of the first operand, all second operands, weights, flags and memory states; binary32", "why_tests_cant": "35 switch cases, each of which can name a wrong converter, overload or operand order; tests use a few of them with equal types.", "anchors": ["ColorMagic/manipulation/color_calculation.cpp:4-40", "ColorMagic/manipulation/color_calculation.cpp:208-239", "ColorMagic/manipulation/color_calculation.cpp:344-375"]}
{"id": "C222", "title": "convertTo is the converter of its target type", "statement": "convertTo(c, Y) does exactly what to_Y(c) does - the same result, the same effect on memory - for every target but the two LCh types.", "quantifier": "all 13 targets, all colours and null, all memory states; binary32 and exact", "why_tests_cant": "A case that takes a detour gives a colour of the right type and nearly the right value.", "anchors": ["ColorMagic/manipulation/color_converter.cpp:6-39"]}
{"id": "C223", "title": "Adjustments on references store what those on pointers return", "statement": "For every convertible colour and every amount, the reference variant of each of the four adjustments leaves at the address of the colour exactly the colour the pointer variant returns.", "quantifier": "all four adjustments, all amounts (also NaN), all convertible colours, all memory states; binary32", "why_tests_cant": "A variant that forgets the assignment or calls another adjustment leaves a colour of the right type behind.", "anchors": ["ColorMagic/manipulation/color_adjustments.cpp:4-7", "ColorMagic/manipulation/color_adjustments.cpp:21-24", "ColorMagic/manipulation/color_adjustments.cpp:38-41", "ColorMagic/manipulation/color_adjustments.cpp:55-58"]}
{"id": "C224", "title": "Blending colours of any types is blending their deep RGB conversions", "statement": "For two colours of one RGB space and of any types, every blend mode but dissolve and every Porter-Duff operator gives exactly what one gets by converting both to deep RGB, source first, applying the same operation and converting the result to the type of the source - the same result and the same effect on memory.", "quantifier": "all 15 x 15 types, all component-wise modes but dissolve, all 12 operators, all flags and memory states; binary32", "why_tests_cant": "225 pairs of types; tests blend RGB colours.", "anchors": ["ColorMagic/manipulation/color_blend.cpp", "ColorMagic/manipulation/porter_duff.cpp"]}
{"id": "C225", "title": "Colours of any type are adapted through XYZ", "statement": "Except for full Bradford and full CMCCAT97, adapting a colour of any convertible type to another white point gives exactly what one gets by converting it to XYZ, adapting that XYZ colour with the same method and converting the result back to the type of the colour - the same result and the same effect on memory. The two exceptions read the second component of the colour itself instead of Y (C71, C117).", "quantifier": "9 of the 11 methods with all parameters, all convertible types, all colours, white points and memory states; binary32 and exact arithmetic", "why_tests_cant": "The values of adapted colours are otherwise only known for XYZ (C69, C114, C115); tests compare a few RGB results.", "anchors": ["ColorMagic/manipulation/chromatic_adaptation.cpp"]}
{"id": "C226", "title": "HCY blending and adjustments of any types work on the HCY, HSL or deep RGB conversion", "statement": "The four HCY blend modes on colours of any types give exactly what one gets by converting both to HCY, source first, blending and converting the result to the type of the source. The adjustments of a colour of any type give exactly what one gets by converting it to deep RGB (or to HSL for the HSL variants, with a percentage other than 0), adjusting that and converting back. Result and effect on memory are the same.", "quantifier": "all types, modes, flags, percentages and memory states; binary32, adjustments also in exact arithmetic", "why_tests_cant": "The values in C94 and C97 are only stated for HCY and HSL colours; tests use few types.", "anchors": ["ColorMagic/manipulation/color_blend.cpp", "ColorMagic/manipulation/color_adjustments.cpp"]}
{"id": "C227", "title": "Distances of any types are distances of the converted colours", "statement": "Each of the seven distance functions on two different objects of any types gives exactly what it gives on their conversions to the type it compares in (deep RGB, CIELUV or Lab), converted one after the other, with the same effect on memory.", "quantifier": "all distance functions with all parameters, all 15 x 15 types, all memory states; binary32 and exact arithmetic", "why_tests_cant": "The formulas of Delta E 2000 and CMC (C106, C108) are only stated for Lab colours; 225 pairs of types.", "anchors": ["ColorMagic/manipulation/color_distance.cpp"]}
{"id": "C228", "title": "Monochromatic schemes of any type are made step by step in HSL", "statement": "In a monochromatic scheme of a colour of any convertible type each colour is made from the one before: it is the conversion of an HSL colour with the same hue as the HSL conversion of its predecessor, whose saturation, lightness or both (by mode) are multiplied by 1 - amount, and with the alpha of the base colour. No existing colour changes.", "quantifier": "all convertible types, modes, amounts in [0, 1], sizes and memory states; exact arithmetic", "why_tests_cant": "C98 covers HSL colours only; tests use a few sizes and types.", "anchors": ["ColorMagic/manipulation/color_combinations.cpp"]}
{"id": "C229", "title": "Complementary splits lie on both sides of the complement", "statement": "create_complimentary_split(base, amount) turns the hue of the HSL form of base by 180 degrees, converts that complement to base's type, and returns base between two colours whose HSL hues are the hue of the complement minus and plus amount (normalised to the circle and limited to 359), with the saturation and lightness of the complement. For an HSL base these are the base's own saturation and lightness. No existing colour changes.", "quantifier": "all convertible types, amounts other than 0 up to 120, colours and memory states; exact arithmetic", "why_tests_cant": "C100 states only type and space of the results; tests use few amounts.", "anchors": ["ColorMagic/manipulation/color_combinations.cpp"]}
{"id": "C230", "title": "The complement of the complement is the colour itself", "statement": "Applying create_complimentary twice to an HSL colour gives an HSL colour with the hue, saturation and lightness of the first one; no existing colour changes.", "quantifier": "all HSL colours and memory states; exact arithmetic", "why_tests_cant": "Fails only for hues between 179 and 180 degrees, whose complement is cut to 359; tests use round hues.", "anchors": ["ColorMagic/manipulation/color_combinations.cpp", "ColorMagic/spaces/hsl.cpp: hue"]}
{"id": "C231", "title": "The colours of a combination are distinct", "statement": "create_combination of an HSL colour with n from 2 to 360 returns n colours of which no two have the same components, although hues between 359 and 360 are cut to 359. The k-th colour has the hue of the base plus k times 360/n on the circle, with the base's saturation and lightness.", "quantifier": "all HSL colours, n from 2 to 360 and memory states; exact arithmetic", "why_tests_cant": "The cut at 359 could merge neighbouring hues for large n; tests use n up to 6.", "anchors": ["ColorMagic/manipulation/color_combinations.cpp", "ColorMagic/spaces/hsl.cpp: hue"]}
{"id": "C232", "title": "A colour space with a replaced white point or gamma curve is the space built with it", "statement": "After set_white_point or set_gamma_curve an RGB space is bit for bit the one that its constructor makes from the same primaries and the new white point or curve. So the order of the setters does not matter, setting the first white point again restores the space, and replacing the curve leaves matrices, primaries and white point alone.", "quantifier": "all primaries, white points, curves and outcomes of the constructor; binary32 and exact arithmetic", "why_tests_cant": "A stale matrix shows up only in conversions made after a particular sequence of setters.", "anchors": ["ColorMagic/spaces/rgb_color_space_definition.h: set_white_point", "ColorMagic/spaces/rgb_color_space_definition.h: set_gamma_curve"]}
{"id": "C233", "title": "The average of two hues lies between them on the hue circle", "statement": "The average of two HSV, HSL, HSI, HCY or LCh colours has a hue in the middle of the shorter arc between the two hues: its angle to either hue is half the angle between them.", "quantifier": "all pairs of colours of these types, with and without alpha; exact arithmetic", "why_tests_cant": "Fails exactly for hues more than 180 degrees apart as numbers, such as 350 and 10; tests average neighbouring hues.", "anchors": ["ColorMagic/manipulation/color_calculation.cpp: average_hsv, average_hsl, average_hsi, average_hcy, average_lch_ab, average_lch_uv"]}
{"id": "C234", "title": "Premultiplying by alpha darkens a colour and keeps its hue", "statement": "alpha_multiply of a colour with alpha below 1 keeps the hue component, and its RGB conversion is not brighter than that of the colour, whatever the type.", "quantifier": "all colours of the types with a hue and all CMYK colours, alpha from 0 to 1; exact arithmetic", "why_tests_cant": "Tests premultiply RGB colours.", "anchors": ["ColorMagic/spaces/color_base.h: alpha_multiply"]}
{"id": "C235", "title": "An average lies between the averaged colours", "statement": "If a component of all averaged colours lies in an interval [lo, hi], so does that component of the average, in exact arithmetic for every type; so does the alpha with include_alpha (not for CMYK, see C57). For up to 65793 8-bit colours with whole components this holds in binary32 without any tolerance. For the other types it holds in binary32 only up to the error of C213: three equal deep greys exist whose average is larger.", "quantifier": "all non-empty lists of valid colours of one type; exact arithmetic, and binary32 (up to 65793 8-bit colours, up to 16384 others)", "why_tests_cant": "Tests average a few colours and compare with a tolerance.", "anchors": ["ColorMagic/manipulation/color_calculation.cpp: average_*"]}
{"id": "C236", "title": "Averages of equally large groups can be averaged again", "statement": "Averaging the averages of two groups of colours gives, component by component, the average of all the colours exactly where the groups have the same size or the same mean of that component; otherwise it differs. Building the intermediate averages changes no existing colour.", "quantifier": "all pairs of non-empty lists of valid colours of one type other than the 8-bit ones; exact arithmetic", "why_tests_cant": "Tests average one list at a time.", "anchors": ["ColorMagic/manipulation/color_calculation.cpp: average_*"]}
{"id": "C237", "title": "Larger components give a larger average", "statement": "If colours are replaced by as many colours of which none has a smaller value of some component, that component of the average does not decrease; in exact arithmetic it increases if one of them has a larger value. In binary32 the average of up to 65793 8-bit colours with whole components never decreases either.", "quantifier": "all pairs of non-empty lists of equally many valid colours of one type; exact arithmetic for all types but the 8-bit ones, binary32 for the 8-bit ones", "why_tests_cant": "Tests average a few colours.", "anchors": ["ColorMagic/manipulation/color_calculation.cpp: average_*"]}
