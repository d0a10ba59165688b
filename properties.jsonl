{"id": "C01", "title": "Double addition is accurate and normalized", "statement": "For normalized finite Doubles x, y far from overflow, x + y is finite, normalized (hi = fl(hi+lo)), and differs from the real sum by at most a few units of 2^-106 relative to the real sum, even under catastrophic cancellation; if the real sum is 0 the result is 0.", "quantifier": "all normalized finite x, y with |hi| <= 2^1015 (subnormals included)", "why_tests_cant": "The operand space is 2^256 bit patterns; rounding, cancellation and binade-boundary cases are far too sparse for sampling to find.", "anchors": ["src/double/add.rs:Add::add", "src/common/primitive.rs:two_sum", "src/common/primitive.rs:quick_two_sum", "src/common/utils.rs:renorm2"]}
{"id": "C02", "title": "Double subtraction is accurate and normalized", "statement": "For normalized finite Doubles x, y far from overflow, x - y is finite, normalized and within a few units of 2^-106 relative to the real difference.", "quantifier": "all normalized finite x, y with |hi| <= 2^1015", "why_tests_cant": "The operand space is 2^256 bit patterns; rounding, cancellation and binade-boundary cases are far too sparse for sampling to find.", "anchors": ["src/double/sub.rs:Sub::sub", "src/common/primitive.rs:two_diff"]}
{"id": "C03", "title": "Double multiplication is accurate and normalized", "statement": "For normalized finite Doubles x, y whose product neither overflows nor underflows, x * y is finite, normalized and within a few units of 2^-105 relative to the real product.", "quantifier": "all normalized finite x, y with product of leading components 0 or in [2^-900, 2^1015]", "why_tests_cant": "The operand space is 2^256 bit patterns; rounding, cancellation and binade-boundary cases are far too sparse for sampling to find.", "anchors": ["src/double/mul.rs:Mul::mul", "src/common/primitive.rs:two_prod"]}
{"id": "C04", "title": "Double division is accurate and normalized", "statement": "For normalized finite Doubles x, y (y nonzero) whose quotient and intermediate remainders neither overflow nor underflow, x / y is finite, normalized and within a small multiple of 2^-104 relative to the real quotient.", "quantifier": "all normalized finite x and nonzero y in a stated magnitude window", "why_tests_cant": "The operand space is 2^256 bit patterns; rounding, cancellation and binade-boundary cases are far too sparse for sampling to find.", "anchors": ["src/double/div.rs:Div::div", "src/double/div.rs:mul_f64", "src/common/utils.rs:renorm3"]}
{"id": "C05", "title": "Sums and differences of single-f64 Doubles are exact", "statement": "Double::new(a,0) + Double::new(b,0) and Double::new(a,0) - Double::new(b,0) represent exactly the real a+b resp. a-b, with hi the correctly rounded f64 sum.", "quantifier": "all finite f64 a, b whose f64 sum does not overflow, subnormals included", "why_tests_cant": "The operand space is 2^256 bit patterns; rounding, cancellation and binade-boundary cases are far too sparse for sampling to find.", "anchors": ["src/double/add.rs:Add::add", "src/double/sub.rs:Sub::sub", "src/common/primitive.rs:two_sum"]}
{"id": "C06", "title": "Products of single-f64 Doubles are exact", "statement": "Double::new(a,0) * Double::new(b,0) represents exactly the real product a*b (fused multiply-add build; and the no_fma Dekker/Veltkamp build).", "quantifier": "all finite f64 a, b whose product does not overflow and whose low word does not underflow", "why_tests_cant": "The operand space is 2^256 bit patterns; rounding, cancellation and binade-boundary cases are far too sparse for sampling to find.", "anchors": ["src/double/mul.rs:Mul::mul", "src/common/primitive.rs:two_prod", "src/common/primitive.rs:split"]}
{"id": "C07", "title": "Double operators follow IEEE special-value rules", "statement": "NaN operands give NaN; inf+inf, inf-inf, inf*0, inf/inf, 0/0, x/0, x/inf, inf*x give the IEEE result with the IEEE sign, whatever the low components are.", "quantifier": "all pairs of Doubles, any low component, at least one operand NaN, infinite or zero", "why_tests_cant": "The operand space is 2^256 bit patterns; rounding, cancellation and binade-boundary cases are far too sparse for sampling to find.", "anchors": ["src/double/add.rs:pre_add", "src/double/sub.rs:pre_sub", "src/double/mul.rs:pre_mul", "src/double/div.rs:pre_div"]}
{"id": "C08", "title": "Quad operators follow IEEE special-value rules", "statement": "Same as the Double rules, for Quad + - * /.", "quantifier": "all pairs of Quads, any low components, at least one operand NaN, infinite or zero", "why_tests_cant": "The operand space is 2^256 bit patterns; rounding, cancellation and binade-boundary cases are far too sparse for sampling to find.", "anchors": ["src/quad/add.rs:pre_add", "src/quad/sub.rs", "src/quad/mul.rs:pre_mul", "src/quad/div.rs:pre_div"]}
{"id": "C09", "title": "Overflow yields a signed infinity", "statement": "When the real sum or product of two finite Doubles exceeds the f64 range, the operator returns infinity of the right sign (as f64 does).", "quantifier": "all finite Doubles whose leading components overflow under + or *", "why_tests_cant": "The property ranges over every overflowing pair; the existing tests exercise none.", "anchors": ["src/double/add.rs:Add::add", "src/double/mul.rs:Mul::mul", "src/common/primitive.rs:two_sum"]}
{"id": "C10", "title": "Comparison of normalized values agrees with real order", "statement": "For normalized finite operands, ==, <, <=, >, >= and partial_cmp on Double and on Quad give the order of the represented real numbers.", "quantifier": "all normalized finite pairs (Double and Quad)", "why_tests_cant": "Lexicographic component order equals numeric order only because of normalization; must hold for all pairs.", "anchors": ["src/double/comp.rs", "src/quad/comp.rs"]}
{"id": "C11", "title": "Equality and ordering laws", "statement": "== is symmetric and transitive, reflexive exactly on values with no NaN component; partial_cmp is antisymmetric and transitive; a == b iff partial_cmp gives Equal; NaN compares with nothing.", "quantifier": "all Doubles and Quads, normalized or not", "why_tests_cant": "Algebraic laws over all pairs and triples.", "anchors": ["src/double/comp.rs", "src/quad/comp.rs"]}
{"id": "C12", "title": "Normal form is unique", "statement": "Two normalized finite values (Double or Quad) representing the same real number are == componentwise; the crate docs claim uniqueness for the weaker criterion |lo| <= ulp(hi)/2, which is checked as well.", "quantifier": "all pairs of normalized finite values", "why_tests_cant": "Uniqueness quantifies over all pairs of representations.", "anchors": ["src/lib.rs:Normalization docs", "src/double/comp.rs", "src/quad/comp.rs"]}
{"id": "C13", "title": "Addition and multiplication commute", "statement": "x + y == y + x and x * y == y * x for finite non-overflowing Doubles; likewise for Quads.", "quantifier": "all pairs of normalized finite values", "why_tests_cant": "A law over all pairs; asymmetries show up only in the last bit of rare inputs.", "anchors": ["src/double/add.rs", "src/double/mul.rs", "src/quad/add.rs", "src/quad/mul.rs"]}
{"id": "C14", "title": "Negation is exact and compatible with + and -", "statement": "-(-x) is x bit for bit, -x represents the negated real, x + (-x) and x - x are zero, x - y equals x + (-y), and -(x + y) equals (-x) + (-y) as values.", "quantifier": "all finite Doubles/Quads in range", "why_tests_cant": "Laws over all operands.", "anchors": ["src/double/neg.rs", "src/double/sub.rs", "src/quad/neg.rs", "src/quad/sub.rs"]}
{"id": "C15", "title": "abs and signum decompose a value", "statement": "abs(x) is never negative, has the magnitude of x, is idempotent and even; signum is NaN/1/-1 by sign of hi (including signed zeros and infinities); signum(x) * abs(x) == x.", "quantifier": "all Doubles and Quads", "why_tests_cant": "Ranges over all values including signed zeros, infinities and NaN.", "anchors": ["src/double/misc.rs:abs,signum", "src/quad/misc.rs:abs,signum"]}
{"id": "C16", "title": "Integer conversions to Double are exact", "statement": "Double::from(n) represents exactly n and is normalized, for every i8..i64 and u8..u64, including i64::MIN and values above 2^53.", "quantifier": "every integer of every supported width", "why_tests_cant": "2^64 inputs; the interesting rounding ties at 32-bit split boundaries are not enumerable.", "anchors": ["src/double/from.rs:from_u64,from_i64,from_int_impl", "src/common/utils.rs:renorm2"]}
{"id": "C17", "title": "Integer conversions to Quad are exact", "statement": "Quad::from(n) represents exactly n and is normalized, for every i8..i128 and u8..u128, including i128::MIN.", "quantifier": "every integer of every supported width", "why_tests_cant": "2^128 inputs.", "anchors": ["src/quad/from.rs:from_u64,from_i64,from_u128,from_i128", "src/common/utils.rs:renorm4"]}
{"id": "C18", "title": "Integer conversion is an order embedding", "statement": "a < b iff Double::from(a) < Double::from(b), and Double::from(a) == Double::from(b) iff a = b (u64, i64; and Quad for u128, i128).", "quantifier": "all pairs of integers", "why_tests_cant": "All pairs of 64/128-bit integers.", "anchors": ["src/double/from.rs", "src/quad/from.rs", "src/double/comp.rs", "src/quad/comp.rs"]}
{"id": "C19", "title": "floor returns the largest integer not above x", "statement": "For every normalized finite Double, floor(x) represents the mathematical floor of x's real value and is normalized; likewise Quad.", "quantifier": "all normalized finite values", "why_tests_cant": "Boundary cases (|x| < 2^-52, next below an integer, integer hi with fractional lo) are measure-zero for random tests.", "anchors": ["src/double/misc.rs:floor", "src/quad/misc.rs:floor"]}
{"id": "C20", "title": "ceil returns the smallest integer not below x", "statement": "For every normalized finite Double, ceil(x) represents the mathematical ceiling of x's real value; likewise Quad.", "quantifier": "all normalized finite values", "why_tests_cant": "As for floor.", "anchors": ["src/double/misc.rs:ceil", "src/quad/misc.rs:ceil"]}
{"id": "C21", "title": "round rounds to nearest, halves away from zero", "statement": "For every normalized finite Double, round(x) is the nearest integer to x's real value with ties away from zero; likewise Quad.", "quantifier": "all normalized finite values", "why_tests_cant": "Ties and near-ties with a nonzero low component are measure-zero.", "anchors": ["src/double/misc.rs:round", "src/quad/misc.rs:round"]}
{"id": "C22", "title": "trunc and fract split a value", "statement": "trunc(x) is the integer part of x toward zero, fract(x) has the sign of x and magnitude < 1, and trunc(x) + fract(x) equals x.", "quantifier": "all normalized finite values", "why_tests_cant": "As for floor.", "anchors": ["src/double/misc.rs:trunc,fract", "src/quad/misc.rs:trunc,fract"]}
{"id": "C23", "title": "ldexp is exact scaling by a power of two", "statement": "x.ldexp(n) represents x * 2^n exactly and stays normalized when no component underflows or overflows, for every i32 n.", "quantifier": "all normalized finite x, all i32 n", "why_tests_cant": "2^32 exponents by 2^128 values; the failure region depends on the combination.", "anchors": ["src/double/alg.rs:ldexp", "src/quad/alg.rs:ldexp"]}
{"id": "C24", "title": "powi follows its documented special-value table", "statement": "x.powi(0) is 1 for every x (even NaN); +-0 and +-inf bases give the documented signed zero/infinity by sign and parity of n; NaN base with n != 0 gives NaN; no i32 exponent panics or gives a wrong power.", "quantifier": "all values, all i32 n including i32::MIN", "why_tests_cant": "2^32 exponents; i32::MIN is a single point.", "anchors": ["src/double/alg.rs:powi,pre_powi", "src/quad/alg.rs:powi,pre_powi"]}
{"id": "C25", "title": "powi computes the n-th power accurately", "statement": "For n >= 1 and no overflow/underflow along the way, x.powi(n) is within about n units of 2^-103 relative to the real x^n, and x.powi(-n) is within a similar bound of 1/x^n; the binary exponentiation loop always terminates and multiplies exactly the right powers.", "quantifier": "all normalized x, all n", "why_tests_cant": "Ranges over all exponents (loop iterations) and operands.", "anchors": ["src/double/alg.rs:powi"]}
{"id": "C26", "title": "Identity elements are exact", "statement": "x + 0, 0 + x, x - 0, x * 1, 1 * x, x / 1 are == x for every normalized finite Double x (and Quad); x / x == 1.", "quantifier": "all normalized finite x (in range)", "why_tests_cant": "All operands.", "anchors": ["src/double/add.rs", "src/double/mul.rs", "src/double/div.rs", "src/quad/add.rs"]}
{"id": "C27", "title": "sqr agrees with x*x accurately", "statement": "x.sqr() is never negative, is normalized and within a few units of 2^-105 of the real square; infinite x gives +inf; NaN gives NaN.", "quantifier": "all normalized finite x in range, all special values", "why_tests_cant": "The operand space is 2^256 bit patterns; rounding, cancellation and binade-boundary cases are far too sparse for sampling to find.", "anchors": ["src/double/alg.rs:sqr,pre_sqr", "src/common/primitive.rs:two_sqr", "src/quad/alg.rs:sqr"]}
{"id": "C28", "title": "sqrt special values and accuracy", "statement": "sqrt(+-0) is zero, negative x gives NaN, +inf gives +inf, and for positive x the result is within a small multiple of 2^-104 of the real square root.", "quantifier": "all values", "why_tests_cant": "The operand space is 2^256 bit patterns; rounding, cancellation and binade-boundary cases are far too sparse for sampling to find.", "anchors": ["src/double/alg.rs:sqrt,pre_sqrt", "src/quad/alg.rs:sqrt"]}
{"id": "C29", "title": "nroot special values", "statement": "nroot(0) is NaN, nroot(1) is x, zero and infinite operands give the right signed zero/infinity by parity and sign of n, even roots of negatives are NaN, nroot(2) is sqrt.", "quantifier": "all values, all i32 n", "why_tests_cant": "2^32 root degrees.", "anchors": ["src/double/alg.rs:nroot,pre_nroot", "src/quad/alg.rs:nroot"]}
{"id": "C30", "title": "Remainder is floored", "statement": "x % y equals x - y*floor(x/y) computed in the type; for integer-valued operands it is the exact mathematical floored modulus (result in [0,y) for y>0, (y,0] for y<0).", "quantifier": "all integer-valued Doubles in a stated window; general normalized operands for the range claim", "why_tests_cant": "All pairs; the wrong-quotient cases lie at exact multiples.", "anchors": ["src/double/rem.rs:Rem::rem", "src/quad/rem.rs"]}
{"id": "C31", "title": "Iterator sum and product are left folds", "statement": "sum() of an iterator is 0 + x1 + x2 + ... in order, product() is 1 * x1 * x2 * ...; empty gives 0 / 1; summing integer-valued Doubles is exact while all partial sums stay within 2^103; a NaN element makes the result NaN.", "quantifier": "all finite sequences of Doubles, any length", "why_tests_cant": "Sequences of unbounded length.", "anchors": ["src/double/iter.rs", "src/quad/iter.rs"]}
{"id": "C32", "title": "The parser accepts exactly its documented language", "statement": "from_str returns Ok exactly for strings that, after trimming and lowercasing, are nan/inf/infinity (with optional minus for inf) or an optional sign, digits with at most one point (underscores ignored) and an optional i32 exponent; empty gives the Empty error and everything else the Invalid error.", "quantifier": "all strings", "why_tests_cant": "All strings of all lengths.", "anchors": ["src/double/from_str.rs:from_str,pre_from_str", "src/quad/from_str.rs"]}
{"id": "C33", "title": "The parser never panics and never misreads an exponent", "statement": "from_str returns (Ok or Err) for every string, in debug and release builds, and the decimal exponent it applies is the written exponent minus the number of fraction digits.", "quantifier": "all strings", "why_tests_cant": "The failing strings need exponents within a few units of i32::MIN.", "anchors": ["src/double/from_str.rs:from_str", "src/quad/from_str.rs:from_str"]}
{"id": "C34", "title": "Integer literals of up to 31 digits parse exactly", "statement": "A string of at most 31 decimal digits (with optional sign, underscores and surrounding whitespace) parses to a normalized Double representing exactly that integer; zero parses to (signed) zero.", "quantifier": "all digit strings of length <= 31", "why_tests_cant": "10^31 strings.", "anchors": ["src/double/from_str.rs:from_str", "src/double/mul.rs", "src/double/add.rs"]}
{"id": "C35", "title": "Decimal literals parse accurately", "statement": "A decimal literal whose digits, read as one integer, are below 10^31 and whose net decimal exponent E (written exponent minus fraction digits) satisfies |E| <= 260 parses to a normalized Double with relative error at most (10|E|+27) * 2^-106.", "quantifier": "all such literals", "why_tests_cant": "Unbounded family of strings.", "anchors": ["src/double/from_str.rs:from_str", "src/double/alg.rs:powi"]}
{"id": "C36", "title": "Irrelevant characters do not change a parse", "statement": "ASCII case of e/inf/nan, surrounding whitespace, underscores, a leading plus sign and leading zeros do not change the parsed value; a leading minus negates it bit for bit.", "quantifier": "all strings", "why_tests_cant": "All strings.", "anchors": ["src/double/from_str.rs:from_str"]}
{"id": "C37", "title": "Formatting honours width, fill, alignment and zero padding", "statement": "The formatted text has max(width, natural length) characters; padding goes left/right/centre as requested, sign-aware zero padding goes after the sign, and without a larger width the text is unchanged.", "quantifier": "all character vectors, widths, fills and alignments", "why_tests_cant": "All formatter configurations.", "anchors": ["src/common/display.rs:align_and_fill", "src/double/display.rs:Display::fmt"]}
{"id": "C38", "title": "Formatting honours precision", "statement": "With precision p > 0 the printed number has exactly p digits after the point (fixed and exponential, zero included); with p = 0 no point is printed.", "quantifier": "all digit vectors, exponents and precisions", "why_tests_cant": "All formatter configurations and digit vectors.", "anchors": ["src/common/display.rs:adjust_zeros,adjust_prec,place_decimal,push_zero"]}
{"id": "C39", "title": "Decimal rounding is correct", "statement": "Cutting a digit vector to a length rounds half up: the resulting decimal equals floor(v/10^k + 1/2), carries propagate, and a carry out of the top digit is rendered as one more leading digit.", "quantifier": "all digit vectors and cut positions", "why_tests_cant": "Unbounded digit vectors; all-nines carries.", "anchors": ["src/common/display.rs:round_and_trunc,place_decimal"]}
{"id": "C40", "title": "Display prints the represented value to 31 digits", "statement": "The decimal printed by {} is within one unit of the 31st significant digit of the real value (62nd for Quad).", "quantifier": "all normalized finite values", "why_tests_cant": "Wrong digits appear only where a component rounds up to an integer during digit extraction.", "anchors": ["src/double/display.rs:extract_digits", "src/quad/display.rs:extract_digits"]}
{"id": "C41", "title": "Display never panics", "statement": "Formatting any Double or Quad with any options returns.", "quantifier": "all values", "why_tests_cant": "Fails only on an exponent range tests do not touch.", "anchors": ["src/double/display.rs:push_digits_fixed,extract_digits", "src/common/display.rs:round_and_trunc,place_decimal"]}
{"id": "C42", "title": "Exponential notation is normalized", "statement": "{:e} prints exactly one nonzero digit before the point for nonzero finite values.", "quantifier": "all values and precisions", "why_tests_cant": "Only values that round up to a power of ten fail.", "anchors": ["src/double/display.rs:LowerExp,UpperExp", "src/common/display.rs:place_decimal"]}
{"id": "C43", "title": "exp special values and range limits", "statement": "exp(NaN)=NaN, exp(0)=1, exp(1)=E, 0 below -600 (Quad: -470), +inf above 708 (Quad: from 709), and the Taylor loop always stops within its table.", "quantifier": "all Doubles and Quads", "why_tests_cant": "The operand space is 2^256 bit patterns; rounding, cancellation and binade-boundary cases are far too sparse for sampling to find.", "anchors": ["src/double/trans.rs:exp,pre_exp", "src/quad/trans.rs:exp,pre_exp"]}
{"id": "C44", "title": "Logarithm special values", "statement": "ln of NaN or any negative (or negative zero) is NaN, ln(+0) = -inf, ln(+inf) = inf, ln(1) = 0; log with zero or negative base is NaN; Newton iteration stops after at most 7 steps.", "quantifier": "all values", "why_tests_cant": "The operand space is 2^256 bit patterns; rounding, cancellation and binade-boundary cases are far too sparse for sampling to find.", "anchors": ["src/double/trans.rs:ln,log,pre_ln,pre_log", "src/quad/trans.rs"]}
{"id": "C45", "title": "Trigonometric special values and totality", "statement": "sin/cos/tan of infinities and NaN are NaN, sin(0)=0, cos(0)=1; every finite argument returns without panicking.", "quantifier": "all values", "why_tests_cant": "Range reduction must land in the table for every finite argument.", "anchors": ["src/double/trig.rs:sin,cos,sin_cos,reduce", "src/quad/trig.rs"]}
{"id": "C46", "title": "atan2 special values and quadrants", "statement": "atan2 on zeros, infinities, equal and opposite operands gives the angle of the point (x,y) in [-pi, pi].", "quantifier": "all pairs with a zero, infinite, equal or opposite operand", "why_tests_cant": "The operand space is 2^256 bit patterns; rounding, cancellation and binade-boundary cases are far too sparse for sampling to find.", "anchors": ["src/double/trig.rs:atan2,pre_atan2", "src/quad/trig.rs:atan2,pre_atan2"]}
{"id": "C47", "title": "Inverse-function domains", "statement": "asin/acos return NaN outside [-1,1] and the documented constants at +-1; acosh is NaN below 1; atanh is NaN for |x| >= 1.", "quantifier": "all normalized values and NaN", "why_tests_cant": "The operand space is 2^256 bit patterns; rounding, cancellation and binade-boundary cases are far too sparse for sampling to find.", "anchors": ["src/double/trig.rs:pre_asin,pre_acos", "src/double/hyper.rs:pre_acosh,pre_atanh", "src/quad/trig.rs", "src/quad/hyper.rs"]}
{"id": "C48", "title": "Hyperbolic special values and termination", "statement": "sinh/cosh/tanh/asinh of NaN, zeros and infinities give the limits; the sinh Taylor loop terminates for every finite argument.", "quantifier": "all values", "why_tests_cant": "Termination ranges over all inputs.", "anchors": ["src/double/hyper.rs", "src/quad/hyper.rs"]}
{"id": "C49", "title": "Published constants are accurate", "statement": "Every mathematical constant (PI, TAU, E, LN_2, SQRT_2, ...) is normalized and within the precision of its type of the real constant.", "quantifier": "each constant against the exact real number", "why_tests_cant": "A test can only compare with another rounded literal; the real number is not representable.", "anchors": ["src/double/aconsts.rs", "src/quad/aconsts.rs"]}
{"id": "C50", "title": "Classification predicates are consistent", "statement": "Exactly one of is_nan / is_infinite / is_finite holds; finite splits into zero / subnormal / normal; is_sign_negative is the negation of is_sign_positive; classification depends only on the leading component.", "quantifier": "all values", "why_tests_cant": "All bit patterns.", "anchors": ["src/double/misc.rs:classify,is_*", "src/quad/misc.rs:classify,is_*"]}
{"id": "C51", "title": "Component conversions round-trip", "statement": "Double::new / From<(f64,f64)> and into (f64,f64) / indexing round-trip bit for bit; index >= 2 (Quad: >= 4) panics; into f64 of a normalized value is the correctly rounded real value.", "quantifier": "all f64 tuples and indices", "why_tests_cant": "All bit patterns.", "anchors": ["src/double.rs", "src/quad.rs", "src/double/from.rs", "src/quad/from.rs"]}
{"id": "C52", "title": "Quad addition is accurate to 212 bits", "statement": "For normalized finite Quads the relative error of x + y is a small multiple of 2^-212 and the result is normalized.", "quantifier": "all normalized finite Quad pairs", "why_tests_cant": "The operand space is 2^256 bit patterns; rounding, cancellation and binade-boundary cases are far too sparse for sampling to find.", "anchors": ["src/quad/add.rs:Add::add", "src/common/utils.rs:accumulate,renorm4"]}
{"id": "C53", "title": "Quad multiplication is accurate to 212 bits", "statement": "For normalized finite Quads in range the relative error of x * y is a small multiple of 2^-212.", "quantifier": "all normalized finite Quad pairs in range", "why_tests_cant": "The operand space is 2^256 bit patterns; rounding, cancellation and binade-boundary cases are far too sparse for sampling to find.", "anchors": ["src/quad/mul.rs:Mul::mul", "src/common/utils.rs:three_three_sum,six_three_sum,nine_two_sum,renorm5"]}
{"id": "C54", "title": "Quad division is accurate", "statement": "For normalized finite Quads in range the relative error of x / y is a small multiple of 2^-212.", "quantifier": "all normalized finite Quad pairs in range", "why_tests_cant": "The operand space is 2^256 bit patterns; rounding, cancellation and binade-boundary cases are far too sparse for sampling to find.", "anchors": ["src/quad/div.rs:Div::div,mul_f64"]}
{"id": "C55", "title": "Double to Quad conversion preserves the value", "statement": "Quad::from(d) represents the same real number as the Double d (up to Quad precision) and never panics.", "quantifier": "all Doubles", "why_tests_cant": "Goes through text; fails on sparse inputs.", "anchors": ["src/quad/from.rs:From<Double>", "src/double/display.rs"]}
{"id": "C56", "title": "Compound assignment and by-reference operators agree with the by-value operators", "statement": "x op= y and all &/by-value combinations give bit-identical results to x op y for + - * / %.", "quantifier": "all operand pairs", "why_tests_cant": "All operands.", "anchors": ["src/double/add.rs", "src/double/sub.rs", "src/double/mul.rs", "src/double/div.rs", "src/double/rem.rs", "src/quad/add.rs", "src/quad/sub.rs", "src/quad/mul.rs", "src/quad/div.rs", "src/quad/rem.rs"]}
{"id": "C57", "title": "Double::from(f64) is exact on integers and keeps the leading component", "statement": "Double::from(x) of an integral f64 is exactly x with zero low word; zeros, infinities and NaN map to the corresponding constants.", "quantifier": "all f64", "why_tests_cant": "2^64 inputs.", "anchors": ["src/double/from.rs:from_float_impl", "src/common/utils.rs:is_dyadic"]}
{"id": "C58", "title": "Single-f64 Quad sums are exact", "statement": "Quad::new(a,0,0,0) + Quad::new(b,0,0,0) represents exactly a + b.", "quantifier": "all finite f64 a, b whose sum does not overflow", "why_tests_cant": "The operand space is 2^256 bit patterns; rounding, cancellation and binade-boundary cases are far too sparse for sampling to find.", "anchors": ["src/quad/add.rs:Add::add", "src/common/utils.rs:accumulate,renorm4"]}
{"id": "C59", "title": "Comparison of computed Quads agrees with real order", "statement": "If x and y are results of Quad arithmetic then x < y iff the represented reals satisfy it.", "quantifier": "all Quads reachable by arithmetic from normalized ones", "why_tests_cant": "Needs every computed value to be canonically normalized.", "anchors": ["src/quad/comp.rs", "src/quad/add.rs", "src/common/utils.rs:renorm4"]}
{"id": "C60", "title": "Multiplication, division and squaring are sign-symmetric", "statement": "(-x)*y, x*(-y) are -(x*y), (-x)*(-y) is x*y, the same for /, and sqr(-x) is sqr(x), component by component, for Double; for Quad likewise for * (and claimed for /).", "quantifier": "all operands, including zeros, infinities and NaN", "why_tests_cant": "A law over all pairs of operands.", "anchors": ["src/double/mul.rs", "src/double/div.rs", "src/double/alg.rs:sqr", "src/quad/mul.rs", "src/quad/div.rs"]}
{"id": "C61", "title": "powf special values", "statement": "powf on zero, negative, NaN, one and infinite operands: 0^n is 0 or +inf by the sign of n, negative bases give NaN, 1^n = 1 for finite n, and x^(+-inf) is the limit.", "quantifier": "all operand pairs with a special operand", "why_tests_cant": "The operand space is 2^256 bit patterns; rounding, cancellation and binade-boundary cases are far too sparse for sampling to find.", "anchors": ["src/double/trans.rs:powf,pre_powf", "src/quad/trans.rs:powf,pre_powf"]}
{"id": "C62", "title": "NaN propagates", "statement": "Every mathematical function of a NaN argument is NaN.", "quantifier": "all NaN encodings (any low words) and all functions", "why_tests_cant": "NaN payload words range over all f64.", "anchors": ["src/double/trans.rs", "src/double/trig.rs", "src/double/hyper.rs", "src/quad/trans.rs", "src/quad/trig.rs", "src/quad/hyper.rs"]}
{"id": "C63", "title": "exp is accurate", "statement": "For a normalized x in [-600, 708], exp(x) is canonical, positive, and has relative error at most (15|x| + 480) * 2^-106, hence below 2^-92 (27 digits).", "quantifier": "all normalized Doubles in the range", "why_tests_cant": "The operand space is 2^256 bit patterns; rounding, cancellation and binade-boundary cases are far too sparse for sampling to find.", "anchors": ["src/double/trans.rs:exp"]}
{"id": "C64", "title": "Text round trip", "statement": "For a normalized nonzero Double, parsing its default text gives back the same number up to the 31 printed digits: x.to_string().parse() is within a small multiple of 2^-100 of x.", "quantifier": "all normalized finite Doubles", "why_tests_cant": "The operand space is 2^256 bit patterns; rounding, cancellation and binade-boundary cases are far too sparse for sampling to find.", "anchors": ["src/double/display.rs", "src/double/from_str.rs", "common/display.rs"]}
{"id": "C65", "title": "Extreme constants", "statement": "Double::MAX and Quad::MAX are normalized and no normalized finite value exceeds them; MIN is -MAX; MIN_POSITIVE is the documented power of two; EPSILON is the documented 2^-104 (Double).", "quantifier": "all normalized finite values", "why_tests_cant": "The claim compares a constant with every representable value.", "anchors": ["src/double/aconsts.rs", "src/quad/aconsts.rs"]}
{"id": "C66", "title": "Coefficient tables are accurate", "statement": "The inverse factorials and the sine/cosine tables that exp, sin and cos are built from agree with the exact real numbers to the precision of the type.", "quantifier": "every table entry against the exact real number", "why_tests_cant": "A test can only compare with another rounded literal.", "anchors": ["src/double/common.rs", "src/quad/common.rs"]}
{"id": "C67", "title": "Double::from(f64) keeps the value", "statement": "Converting an f64 that is not tiny (at least 2^-500 in magnitude) never panics and gives a normalized Double within 2^-52.8 of the argument, for every f64.", "quantifier": "all finite f64 of ordinary size", "why_tests_cant": "Needs every f64 and every decimal text it prints as.", "anchors": ["src/double/from.rs"]}
{"id": "C68", "title": "ln is accurate", "statement": "For a normalized x with ln x between -707.9 and 599.9 (the documented limit is 600), ln(x) never panics and is a normalized Double within (27.2 |ln x| + 500) * 2^-106 of the real logarithm, given that f64::ln is accurate to 2^-40.", "quantifier": "all normalized positive Doubles in the range, and every platform library meeting the stated contract", "why_tests_cant": "The operand space is 2^256 bit patterns; rounding, cancellation and binade-boundary cases are far too sparse for sampling to find.", "anchors": ["src/double/trans.rs:ln"]}
{"id": "C69", "title": "log10, log2 and log are accurate", "statement": "For such x that are 1 or not within 2^-80 of 1, log10, log2 and log in any base with |ln b| >= 2^-30 are within a small multiple of 2^-106 of the real value, relative to 1/|ln b|.", "quantifier": "all normalized positive Doubles in the range, all bases, every platform library meeting the stated contract", "why_tests_cant": "The operand space is 2^256 bit patterns; rounding, cancellation and binade-boundary cases are far too sparse for sampling to find.", "anchors": ["src/double/trans.rs:log10,log2,log"]}
{"id": "C70", "title": "powf is accurate", "statement": "For positive normalized x and normalized n with -599 <= n ln x <= 707, powf(x, n) is x^n with relative error at most (53 |n ln x| + 510 |n| + 490) * 2^-106.", "quantifier": "all operand pairs in the range, every platform library meeting the stated contract", "why_tests_cant": "The operand space is 2^256 bit patterns; rounding, cancellation and binade-boundary cases are far too sparse for sampling to find.", "anchors": ["src/double/trans.rs:exp,ln", "src/double/alg.rs:powf"]}
{"id": "C71", "title": "sin is accurate", "statement": "For a normalized x with 2^-700 <= |x| <= 2^40, sin(x) never panics and is a normalized Double within (15 |x| + 480) * 2^-106 of the real sine; for |x| <= 0.098 the error is at most 70 * 2^-106 relative to the result.", "quantifier": "all normalized Doubles in the range, every f64 printer meeting the stated contract", "why_tests_cant": "The operand space is 2^256 bit patterns; rounding, cancellation and binade-boundary cases are far too sparse for sampling to find.", "anchors": ["src/double/trig.rs:sin,reduce,sin_taylor,sincos_taylor"]}
{"id": "C72", "title": "cos is accurate", "statement": "For a normalized x with 2^-700 <= |x| <= 2^40, cos(x) never panics and is a normalized Double within (15 |x| + 480) * 2^-106 of the real cosine.", "quantifier": "all normalized Doubles in the range, every f64 printer meeting the stated contract", "why_tests_cant": "The operand space is 2^256 bit patterns; rounding, cancellation and binade-boundary cases are far too sparse for sampling to find.", "anchors": ["src/double/trig.rs:cos,reduce,cos_taylor,sincos_taylor"]}
{"id": "C73", "title": "sin_cos is accurate and on the unit circle", "statement": "For such x, sin_cos(x) returns both values to the same accuracy, and the sum of their squares is within 5 (15 |x| + 480) * 2^-106 of 1.", "quantifier": "all normalized Doubles in the range, every f64 printer meeting the stated contract", "why_tests_cant": "The operand space is 2^256 bit patterns; rounding, cancellation and binade-boundary cases are far too sparse for sampling to find.", "anchors": ["src/double/trig.rs:sin_cos"]}
{"id": "C74", "title": "tan is accurate", "statement": "For such x at which neither sin x nor cos x is within a thousand error bounds of zero, tan(x) is within 1.05 (15 |x| + 480) * 2^-106 / |cos x| * (1 + |tan x|) of the real tangent; for |x| <= 0.098 the error is at most 126 * 2^-106 relative to the result.", "quantifier": "all normalized Doubles in the range, every f64 printer meeting the stated contract", "why_tests_cant": "The operand space is 2^256 bit patterns; rounding, cancellation and binade-boundary cases are far too sparse for sampling to find.", "anchors": ["src/double/trig.rs:tan"]}
{"id": "C75", "title": "cosh is accurate", "statement": "For a normalized nonzero x with |x| <= 600, cosh(x) is a normalized Double with relative error at most (15.1 |x| + 505) * 2^-106.", "quantifier": "all normalized Doubles in the range", "why_tests_cant": "The operand space is 2^256 bit patterns; rounding, cancellation and binade-boundary cases are far too sparse for sampling to find.", "anchors": ["src/double/hyper.rs:cosh"]}
{"id": "C76", "title": "sinh terminates and is accurate", "statement": "For a normalized x with |x| <= 600, sinh(x) terminates without panicking and is a normalized Double within (15.1 |x| + 505) * 2^-106 * cosh x of the real value (relative error at most 65 * 2^-106 for |x| <= 0.049); sinh_cosh returns both to that accuracy.", "quantifier": "all normalized Doubles in the range, every f64 printer meeting the stated contract (sinh_cosh)", "why_tests_cant": "The operand space is 2^256 bit patterns; rounding, cancellation and binade-boundary cases are far too sparse for sampling to find.", "anchors": ["src/double/hyper.rs:sinh,sinh_cosh"]}
{"id": "C77", "title": "tanh is accurate", "statement": "For a normalized x with |x| <= 600, tanh(x) never panics and is a normalized Double within 600 * 2^-106 of the real value, with relative error at most 118 * 2^-106 for 2^-200 <= |x| <= 0.049.", "quantifier": "all normalized Doubles in the range, every f64 printer meeting the stated contract", "why_tests_cant": "The operand space is 2^256 bit patterns; rounding, cancellation and binade-boundary cases are far too sparse for sampling to find.", "anchors": ["src/double/hyper.rs:tanh"]}
{"id": "C78", "title": "Inverse hyperbolic functions are accurate", "statement": "asinh of x in (0, 2^99] is within (27.2 asinh x + 548) * 2^-106; of x in [-2^40, 0) within (27.2 |asinh x| + 507 + 81 (1 + x^2)) * 2^-106; acosh of x in [1 + 2^-80, 2^99] within (27.2 acosh x + 525 + 5 x / sqrt(x^2 - 1)) * 2^-106; atanh of x with 2^-90 <= |x| <= 1 - 2^-800 within (27.2 |atanh x| + 265) * 2^-106.", "quantifier": "all normalized Doubles in the ranges, every platform library meeting the stated contracts", "why_tests_cant": "The operand space is 2^256 bit patterns; rounding, cancellation and binade-boundary cases are far too sparse for sampling to find.", "anchors": ["src/double/hyper.rs:asinh,acosh,atanh"]}
{"id": "C79", "title": "atan2 is accurate", "statement": "For normalized y and x with 2^-200 <= |y|, |x| <= 2^200, y.atan2(x) never panics and is a normalized Double within 1400 * 2^-106 of the angle in (-pi, pi] of the point (x, y), in every quadrant; for angles up to 0.09 the relative error is at most 215 * 2^-106.", "quantifier": "all normalized Doubles in the range, every f64 printer and f64::atan2 meeting the stated contracts", "why_tests_cant": "The operand space is 2^256 bit patterns; rounding, cancellation and binade-boundary cases are far too sparse for sampling to find.", "anchors": ["src/double/trig.rs:atan2"]}
{"id": "C80", "title": "atan is accurate", "statement": "For a normalized x with 2^-200 <= |x| <= 2^200, atan(x) never panics and is a normalized Double within 1400 * 2^-106 of the real arctangent, with relative error at most 215 * 2^-106 for |x| <= 0.08.", "quantifier": "all normalized Doubles in the range, every platform library meeting the stated contracts", "why_tests_cant": "The operand space is 2^256 bit patterns; rounding, cancellation and binade-boundary cases are far too sparse for sampling to find.", "anchors": ["src/double/trig.rs:atan"]}
{"id": "C81", "title": "asin is accurate", "statement": "For a normalized x with 2^-200 <= |x| and 1 - x^2 >= 2^-80, asin(x) never panics and is a normalized Double within (1472 + 9.4 / sqrt(1 - x^2)) * 2^-106 of the real arcsine, with relative error at most 300 * 2^-106 for |x| <= 0.079.", "quantifier": "all normalized Doubles in the range, every platform library meeting the stated contracts", "why_tests_cant": "The operand space is 2^256 bit patterns; rounding, cancellation and binade-boundary cases are far too sparse for sampling to find.", "anchors": ["src/double/trig.rs:asin"]}
{"id": "C82", "title": "acos is accurate", "statement": "For a normalized x with 2^-200 <= |x| and 1 - x^2 >= 2^-80, acos(x) never panics and is a normalized Double within (1472 + 9.4 / sqrt(1 - x^2)) * 2^-106 of the real arccosine.", "quantifier": "all normalized Doubles in the range, every platform library meeting the stated contracts", "why_tests_cant": "The operand space is 2^256 bit patterns; rounding, cancellation and binade-boundary cases are far too sparse for sampling to find.", "anchors": ["src/double/trig.rs:acos"]}
{"id": "C83", "title": "n-th roots are accurate", "statement": "For a normalized x with 2^-800 <= |x| <= 2^800 and 3 <= n <= 4095 (x positive or n odd), nroot(x, n) never panics and is a normalized Double with relative error at most (n (2.9 |ln|x||/n + 3.3)^2 + 37) * 2^-106 against the real root with the sign of x; cbrt(x) is nroot(x, 3), so negative arguments give the negative root.", "quantifier": "all normalized Doubles in the range, all such n, every platform library meeting the stated contracts", "why_tests_cant": "The operand space is 2^256 bit patterns; rounding, cancellation and binade-boundary cases are far too sparse for sampling to find.", "anchors": ["src/double/alg.rs:nroot,cbrt"]}
{"id": "C84", "title": "Summing a sequence of Doubles is accurate", "statement": "The Sum of any sequence of n normalized Doubles whose absolute values add up to at most 2^1010 is a normalized Double within n * 12 * 2^-106 times the sum of the absolute values of the exact sum.", "quantifier": "all finite sequences of normalized Doubles, of any length up to 2^100", "why_tests_cant": "Sequences of any length.", "anchors": ["src/double/add.rs:Sum"]}
{"id": "C85", "title": "Multiplying a sequence of Doubles is accurate", "statement": "The Product of any sequence of n normalized Doubles whose partial products stay within [2^-890, 2^1010] is a normalized Double with relative error at most n * 18 * 2^-106.", "quantifier": "all finite sequences of normalized Doubles, of any length up to 2^100", "why_tests_cant": "Sequences of any length.", "anchors": ["src/double/mul.rs:Product"]}
{"id": "C86", "title": "Multiplying a sequence of Quads is accurate", "statement": "The Product of any sequence of n normalized Quads (each at most 2^490) whose partial products stay within [2^-490, 2^490] is finite with relative error at most n * 2^-197.", "quantifier": "all finite sequences of normalized Quads, of any length up to 2^190", "why_tests_cant": "Sequences of any length; computed products are not canonical, so the accuracy of the next product does not follow from the two-operand case.", "anchors": ["src/quad/mul.rs:Product", "src/common/utils.rs:renorm5"]}
{"id": "C87", "title": "Computed Quad products remain good operands", "statement": "The class of Quads whose components fall off by 52 bits contains all canonical Quads and is closed under * and sqr, with relative error at most 2^-198 at every step.", "quantifier": "all chains of multiplications and squarings in range", "why_tests_cant": "Histories of operations of any length.", "anchors": ["src/quad/mul.rs", "src/quad/alg.rs:sqr", "src/common/utils.rs:renorm5"]}
{"id": "C88", "title": "Quad sqr is accurate", "statement": "For a normalized Quad x with |x| <= 2^498 and x^2 >= 2^-500, x.sqr() is finite, positive and has relative error at most 2^-198.", "quantifier": "all normalized Quads in range", "why_tests_cant": "The operand space is 2^256 bit patterns; rounding, cancellation and binade-boundary cases are far too sparse for sampling to find.", "anchors": ["src/quad/alg.rs:sqr"]}
{"id": "C89", "title": "Quad integer powers are accurate", "statement": "For a normalized Quad x and 1 <= n <= i32::MAX with x^n within [2^-490, 2^490], x.powi(n) never panics and has relative error at most n * 2^-197.", "quantifier": "all normalized Quads, all positive exponents, both build profiles", "why_tests_cant": "The operand space is 2^256 bit patterns; rounding, cancellation and binade-boundary cases are far too sparse for sampling to find.", "anchors": ["src/quad/alg.rs:powi"]}
{"id": "C90", "title": "Summing a sequence of Quads is accurate", "statement": "The Sum of any sequence of n Quads that are canonical (or themselves computed sums) whose absolute values add up to at most 2^998 and whose partial sums never almost cancel is finite and within n * 2^-136 times the sum of the absolute values of the exact sum; for terms of one sign that is a relative error.", "quantifier": "all finite sequences of such Quads, of any length up to 2^107", "why_tests_cant": "Sequences are of unbounded length.", "anchors": ["src/quad/iter.rs", "src/quad/add.rs"]}
{"id": "C91", "title": "Computed Quad sums remain good operands", "statement": "The class of Quads whose components fall off by about 52 bits contains all canonical Quads and is closed under + as long as the operands do not almost cancel, with error at most 2^-137 (|x| + |y|) at every step.", "quantifier": "all chains of additions in range without near-total cancellation", "why_tests_cant": "Histories of operations of any length.", "anchors": ["src/quad/add.rs"]}
{"id": "C92", "title": "Whole Double expressions are accurate", "statement": "Any expression built from normalized Doubles with unary minus, +, -, *, / and sqrt, of any shape and size, whose sums do not cancel and whose exact intermediate values stay within [2^-790, 2^790] in magnitude, evaluates without panicking to a normalized Double whose relative error against the exact real value is at most 2^-100 per rounding step (a quotient counts its divisor twice).", "quantifier": "all expression trees, all leaf values, every f64 printer meeting the stated contract", "why_tests_cant": "Expressions of unbounded size: an induction over all compositions.", "anchors": ["src/double/add.rs", "src/double/sub.rs", "src/double/mul.rs", "src/double/div.rs", "src/double/alg.rs:sqrt"]}
{"id": "C93", "title": "Whole Quad expressions are accurate", "statement": "Any expression built from canonical Quads with unary minus, +, - and *, of any shape and size, whose sums do not cancel and whose exact intermediate values stay within [2^-490, 2^490] in magnitude, evaluates to a finite Quad whose relative error against the exact real value is at most 2^-136 per rounding step.", "quantifier": "all expression trees, all leaf values", "why_tests_cant": "Expressions of unbounded size; computed intermediate Quads are not canonical, so the two-operand theorems do not compose by themselves.", "anchors": ["src/quad/add.rs", "src/quad/sub.rs", "src/quad/mul.rs"]}
{"id": "C94", "title": "Whole Quad expressions with literals, quotients and roots are accurate", "statement": "Any expression built from tame Quads (low components at most 2^-48 of the leading one, e.g. canonical ones) and decimal literals with unary minus, +, -, *, / and sqrt, of any shape and size, whose sums do not cancel and whose exact intermediate values stay within [2^-85, 2^85] in magnitude, evaluates without panicking to a tame Quad whose relative error against the exact real value is at most 2^-88 per rounding step (a literal counts four steps, a divisor twice).", "quantifier": "all expression trees, all leaf values and literals, every f64 printer meeting the stated contract, both build profiles", "why_tests_cant": "Expressions of unbounded size; Quad division and sqrt lose more than half of the nominal precision, so how errors compose must be proved for all inputs.", "anchors": ["src/quad/div.rs", "src/quad/mul.rs", "src/quad/add.rs", "src/quad/alg.rs:sqrt", "src/quad/from.rs:from_str"]}
{"id": "C95", "title": "Decimal literals parse accurately as Quads", "statement": "A decimal literal with at most 130 significant digits parses without panicking; with net decimal exponent E (written exponent minus fraction digits) in [0, 140] the relative error is at most (4d+4) * 2^-137 for d significant digits, with E in [-87, -1] at most 2^-87.", "quantifier": "all texts of that form, both build profiles", "why_tests_cant": "All strings of unbounded length (leading zeros, underscores, whitespace).", "anchors": ["src/quad/from.rs:from_str", "src/quad/from.rs:parse"]}
{"id": "C96", "title": "Quad reciprocals and negative integer powers are accurate", "statement": "For a normalized Quad x with |x| in [2^-299, 2^299], x.recip() has relative error at most 2^-91; for 1 <= n <= i32::MAX with |x|^n in [2^-290, 2^290], x.powi(-n) never panics and has relative error at most 2^-90.", "quantifier": "all normalized Quads in range, all negative exponents, both build profiles", "why_tests_cant": "The operand space is 2^256 bit patterns; rounding, cancellation and binade-boundary cases are far too sparse for sampling to find.", "anchors": ["src/quad/alg.rs:recip", "src/quad/alg.rs:powi", "src/quad/div.rs"]}
{"id": "C97", "title": "Quad exp is accurate", "statement": "For a canonical Quad x (or one computed by sums and products without heavy cancellation) with -469 <= x <= 707 and |x| >= 2^-80 that is not within a relative 2^-28 of a nonzero multiple of ln 2, exp(x) is finite, positive and has relative error at most (3 |x| + 60) * 2^-137.", "quantifier": "all canonical Quads in the range", "why_tests_cant": "The operand space is 2^256 bit patterns; rounding, cancellation and binade-boundary cases are far too sparse for sampling to find.", "anchors": ["src/quad/trans.rs:exp", "src/quad/alg.rs:ldexp", "src/quad/common.rs:mul_pwr2"]}
{"id": "C98", "title": "Quad ln is accurate", "statement": "For a positive canonical Quad x (or one computed by sums and products without heavy cancellation) with 2^-16 <= |ln x| <= 340, ln x not within 2^-20 of -1 and x not within about a relative 2^-27 |ln x| of a power of two other than 1, ln(x) returns without panicking, in debug and release builds, and is within (5.1 |ln x| + 67) * 2^-137 of the real logarithm, provided f64::ln is accurate to a few units in the last place.", "quantifier": "all canonical positive Quads in the range, every f64 library meeting the contract", "why_tests_cant": "The operand space is 2^256 bit patterns; rounding, cancellation and binade-boundary cases are far too sparse for sampling to find.", "anchors": ["src/quad/trans.rs:ln"]}
{"id": "C99", "title": "Quad log10, log2 and log are accurate", "statement": "For Quads whose logarithm is in the domain of the previous property, log10(x), log2(x) and x.log(b) return without panicking and have relative error at most 2^-91.", "quantifier": "all canonical positive Quads and bases in the range, every f64 library meeting the contract", "why_tests_cant": "The operand space is 2^256 bit patterns; rounding, cancellation and binade-boundary cases are far too sparse for sampling to find.", "anchors": ["src/quad/trans.rs:log10", "src/quad/trans.rs:log2", "src/quad/trans.rs:log"]}
{"id": "C100", "title": "Quad powf is accurate", "statement": "For a positive Quad x in the domain of Quad ln and a canonical Quad n with -468 <= n ln x <= 706, |n ln x| >= 2^-79 and n ln x not within a relative 2^-27 of a nonzero multiple of ln 2, x.powf(n) returns without panicking and has relative error at most (9 |n ln x| + 70 |n| + 61) * 2^-137.", "quantifier": "all canonical Quads x, n in the range, every f64 library meeting the contract", "why_tests_cant": "The operand space is 2^256 bit patterns; rounding, cancellation and binade-boundary cases are far too sparse for sampling to find.", "anchors": ["src/quad/alg.rs:powf"]}
{"id": "C101", "title": "Quad hyperbolic functions are accurate", "statement": "For a canonical Quad x (or one computed by sums and products without heavy cancellation) that is not within a relative 2^-28 of a nonzero multiple of ln 2 (automatic for |x| < 0.69): cosh(x) has relative error at most 2^-89 for 2^-80 <= |x| <= 200; sinh(x) terminates without panicking with relative error at most 2^-85 for 2^-28 <= |x| <= 200 (2^-87 for |x| <= 0.049); sinh_cosh(x) returns both, with errors at most 2^-85 and 2^-88; tanh(x) has relative error at most 2^-84 for 2^-28 <= |x| <= 60; and the computed values satisfy cosh^2 - sinh^2 = 1 to 2^-83 cosh^2.", "quantifier": "all canonical Quads in the ranges, every f64 printer meeting the stated contract", "why_tests_cant": "The operand space is 2^256 bit patterns; rounding, cancellation and binade-boundary cases are far too sparse for sampling to find.", "anchors": ["src/quad/hyper.rs:cosh", "src/quad/hyper.rs:sinh", "src/quad/hyper.rs:sinh_cosh", "src/quad/hyper.rs:tanh"]}
{"id": "C102", "title": "Quad trigonometric functions are accurate", "statement": "For a canonical Quad x (or one computed by sums and products without heavy cancellation) with 2^-290 <= |x| <= 3.1: sin(x), cos(x) and sin_cos(x) return without panicking, finite, with absolute error at most 2^-87; the two computed values satisfy sin^2 + cos^2 = 1 to 2^-84; and where |sin x| and |cos x| are at least 1/32, tan(x) has relative error at most 2^-80. For 2^-290 <= |x| <= 2^20, over which whole turns are removed first, sin, cos and sin_cos still return without panicking, with absolute error at most (|x|+8)*2^-89. There, where |sin x| and |cos x| are at least 1/32, tan(x) has relative error at most (|x|+8)*2^-82.", "quantifier": "all canonical Quads in the ranges, every f64 printer meeting the stated contract", "why_tests_cant": "The operand space is 2^256 bit patterns; rounding, cancellation and binade-boundary cases are far too sparse for sampling to find.", "anchors": ["src/quad/trig.rs:sin", "src/quad/trig.rs:cos", "src/quad/trig.rs:sin_cos", "src/quad/trig.rs:tan"]}
{"id": "C103", "title": "Elementary function pairs undo each other", "statement": "Composing a function with its inverse returns the argument. For a normalized Double x: |sqr(sqrt(x)) - x| <= 74*2^-106*x for 2^-700 <= x <= 2^700 and |sqrt(sqr(x)) - |x|| <= 42*2^-106*|x| for 2^-350 <= |x| <= 2^350; |ln(exp(x)) - x| <= (43|x|+985)*2^-106 for |x| <= 599; |exp(ln(x)) - x| <= (43|ln x|+985)*2^-106*x for x > 0 with |ln x| <= 599; |sin(asin(x)) - x| and |cos(acos(x)) - x| are at most (2001+9.4/sqrt(1-x^2))*2^-106 for 2^-200 <= |x| and 1-x^2 >= 2^-80; |sinh(asinh(x)) - x| <= (43 asinh x+1060)*2^-106*sqrt(1+x^2) for 0 < x <= 2^99; |tanh(atanh(x)) - x| <= (28|y|+867)*2^-106 where y is the real atanh of x and |y| <= 599; |cosh(acosh(x)) - x| <= (43y+1033+6 coth y)*2^-106*x where y is the real acosh of x and 1+2^-80 <= x <= 2^99. For a canonical Quad x, away from the points excluded in C97 and C98: |ln(exp(x)) - x| <= (8.2|x|+128)*2^-137 and |exp(ln(x)) - x| <= (8.2|ln x|+128)*2^-137*x. None of these calls panics.", "quantifier": "all normalized values in the ranges, every f64 library meeting the stated contracts", "why_tests_cant": "The operand space is 2^256 bit patterns; rounding, cancellation and binade-boundary cases are far too sparse for sampling to find.", "anchors": ["src/double/trans.rs:exp", "src/double/trans.rs:ln", "src/double/trig.rs:asin", "src/double/trig.rs:acos", "src/double/hyper.rs:asinh", "src/quad/trans.rs:exp", "src/quad/trans.rs:ln"]}
