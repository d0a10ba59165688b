{
 "claims": [
  {
   "property": "C01",
   "status": "proved",
   "theorems": [
    "C01_add_accurate"
   ],
   "note": ""
  },
  {
   "property": "C02",
   "status": "proved",
   "theorems": [
    "C02_sub_accurate"
   ],
   "note": ""
  },
  {
   "property": "C03",
   "status": "proved",
   "theorems": [
    "C03_mul_accurate"
   ],
   "note": ""
  },
  {
   "property": "C07",
   "status": "proved",
   "theorems": [
    "C07_add_special",
    "C07_sub_special",
    "C07_mul_special",
    "C07_div_special",
    "C07_mul_zero_right",
    "C07_div_zero_left",
    "C07_zero_sign_refuted"
   ],
   "note": "sign of zero results deviates from IEEE in the witnesses of C07_zero_sign_refuted"
  },
  {
   "property": "C08",
   "status": "proved",
   "theorems": [
    "C08_add_special",
    "C08_sub_special",
    "C08_mul_special",
    "C08_div_special"
   ],
   "note": ""
  },
  {
   "property": "C09",
   "status": "partial",
   "theorems": [
    "C09_overflow_refuted",
    "C09_overflow_not_finite_partial"
   ],
   "note": "the claim is false of the code: overflow may give NaN (witness proved); proved part: an overflowing result is never finite"
  },
  {
   "property": "C10",
   "status": "proved",
   "theorems": [
    "C10_double_order",
    "C10_quad_order"
   ],
   "note": ""
  },
  {
   "property": "C11",
   "status": "proved",
   "theorems": [
    "C11_double_laws",
    "C11_quad_laws"
   ],
   "note": ""
  },
  {
   "property": "C12",
   "status": "proved",
   "theorems": [
    "C12_double_unique",
    "C12_quad_unique",
    "C12_doc_criterion_refuted"
   ],
   "note": "uniqueness under hi = fl(hi+lo); the criterion of the crate docs is refuted"
  },
  {
   "property": "C50",
   "status": "proved",
   "theorems": [
    "C50_classify_double",
    "C50_classify_quad",
    "C50_leading_only"
   ],
   "note": ""
  },
  {
   "property": "C51",
   "status": "proved",
   "theorems": [
    "C51_double_roundtrip",
    "C51_double_index_panics",
    "C51_double_to_f64_nearest",
    "C51_quad_roundtrip",
    "C51_quad_index_panics"
   ],
   "note": ""
  },
  {
   "property": "C56",
   "status": "proved",
   "theorems": [
    "C56_double_forms_agree",
    "C56_quad_forms_agree"
   ],
   "note": ""
  },
  {
   "property": "C05",
   "status": "proved",
   "theorems": [
    "C05_add_exact",
    "C05_sub_exact"
   ],
   "note": "|a|,|b| <= 2^1018"
  },
  {
   "property": "C06",
   "status": "proved",
   "theorems": [
    "C06_mul_exact",
    "C06_mul_exact_no_fma"
   ],
   "note": "product 0 or in [2^-969, 2^1015]; the no_fma build with the stated magnitude bounds on both factors"
  },
  {
   "property": "C13",
   "status": "partial",
   "theorems": [
    "C13_add_comm",
    "C13_mul_comm_f64_partial",
    "C13_mul_comm_refuted",
    "C13_quad_add_comm_refuted",
    "C13_quad_mul_comm_refuted",
    "C13_quad_add_comm_partial",
    "C13_quad_mul_comm_partial"
   ],
   "note": "true for Double +; Double *, Quad + and Quad * do not commute (witnesses proved); Double * commutes when one factor is a single f64; Quad + commutes when components do not tie and one operand lies below the other; Quad * commutes up to 2^-202"
  },
  {
   "property": "C14",
   "status": "proved",
   "theorems": [
    "C14_double_neg",
    "C14_quad_neg"
   ],
   "note": ""
  },
  {
   "property": "C15",
   "status": "proved",
   "theorems": [
    "C15_double_abs",
    "C15_quad_abs",
    "C15_double_signum",
    "C15_quad_signum"
   ],
   "note": ""
  },
  {
   "property": "C26",
   "status": "proved",
   "theorems": [
    "C26_double_identities",
    "C26_quad_identities"
   ],
   "note": "Quad: neighbouring components non-overlapping (QNormW)"
  },
  {
   "property": "C52",
   "status": "partial",
   "theorems": [
    "C52_add_accuracy_partial",
    "C52_sub_accuracy_partial",
    "C52_add_accuracy_general_partial",
    "C52_add_accuracy_refuted",
    "C52_add_normal_refuted"
   ],
   "note": "a 2^-212 bound and normal form are false of the code (witnesses proved: error above 2^-168); proved: 2^-147 relative for same-sign operands, 2^-147 (|x|+|y|) without heavy cancellation, 2^-96 (|x|+|y|) always"
  },
  {
   "property": "C53",
   "status": "proved",
   "theorems": [
    "C53_mul_accuracy",
    "C53_mul_accuracy_general",
    "C53_mul_normal_refuted"
   ],
   "note": "relative error at most 2^-203 = 512 * 2^-212 for |x|,|y| <= 2^499 and |xy| >= 2^-500; the result need not be in normal form (witness proved)"
  },
  {
   "property": "C54",
   "status": "partial",
   "theorems": [
    "C54_div_accuracy_partial",
    "C54_div_tame_partial",
    "C54_div_infinite_refuted",
    "C54_div_accuracy_refuted"
   ],
   "note": "the claimed precision is false of the code: mul_f64 multiplies two error terms instead of adding them; what is proved instead: relative error at most 2^-91 for canonical operands (2^-89 for tame ones) with leading words in [2^-300, 2^90] over [2^-300, 2^300]"
  },
  {
   "property": "C58",
   "status": "proved",
   "theorems": [
    "C58_quad_add_exact"
   ],
   "note": ""
  },
  {
   "property": "C59",
   "status": "partial",
   "theorems": [
    "C59_order_refuted"
   ],
   "note": "the claim is false of the code (witness proved)"
  },
  {
   "property": "C60",
   "status": "proved",
   "theorems": [
    "C60_double_sign",
    "C60_quad_sign",
    "C60_quad_div_sign_refuted"
   ],
   "note": "Double * / sqr and Quad *; Quad / is refuted"
  },
  {
   "property": "C16",
   "status": "proved",
   "theorems": [
    "C16_double_from_int_exact"
   ],
   "note": "the six narrow widths share one model function, covered by the range [-2^31, 2^32)"
  },
  {
   "property": "C17",
   "status": "partial",
   "theorems": [
    "C17_quad_from_int_exact",
    "C17_normal_refuted"
   ],
   "note": "exact for every width and normalised up to 64 bits; normalisation of the 128-bit conversions is false of the code (witnesses proved)"
  },
  {
   "property": "C18",
   "status": "proved",
   "theorems": [
    "C18_double_order_embedding",
    "C18_quad_order_embedding"
   ],
   "note": "all widths, including u128/i128 whose Quads are not normalised"
  },
  {
   "property": "C19",
   "status": "partial",
   "theorems": [
    "C19_double_floor_partial",
    "C19_double_floor_refuted",
    "C19_quad_floor_partial",
    "C19_quad_floor_refuted"
   ],
   "note": "false as stated: exact characterisation for Double (right iff not hi in (0,2^-52) or -1+2^-53 with lo<0; otherwise exactly one too small, proved for all such x); Quad: value right outside the analogous set for |q0| <= 2^1000; refuted in general, and result not always normalised"
  },
  {
   "property": "C20",
   "status": "partial",
   "theorems": [
    "C20_double_ceil_partial",
    "C20_double_ceil_refuted",
    "C20_quad_ceil_partial",
    "C20_quad_ceil_refuted"
   ],
   "note": "mirror image of C19"
  },
  {
   "property": "C21",
   "status": "partial",
   "theorems": [
    "C21_double_round_partial",
    "C21_round_refuted"
   ],
   "note": "false as stated (e.g. -2.5 + 2^-70); the exact set of normalised Doubles on which round is right is proved; Quad only refuted"
  },
  {
   "property": "C22",
   "status": "partial",
   "theorems": [
    "C22_double_trunc_fract_partial",
    "C22_double_trunc_refuted",
    "C22_quad_trunc_partial"
   ],
   "note": "Double: trunc and fract exact for every normalised x outside the proved bad set (0<|hi|<2^-52, hi*lo<0), on which trunc is +-1 instead of 0; Quad: trunc only, fract not"
  },
  {
   "property": "C23",
   "status": "partial",
   "theorems": [
    "C23_double_ldexp_partial",
    "C23_quad_ldexp_partial",
    "C23_ldexp_refuted"
   ],
   "note": "exact and normalised for every -1023<=n<=1023; refuted outside (factor 2^n under/overflows)"
  },
  {
   "property": "C04",
   "status": "proved",
   "theorems": [
    "C04_div_accurate"
   ],
   "note": "relative error at most 16 * 2^-106 and normalised; x zero, or |x|, |x/y| in [2^-900, 2^1010]"
  },
  {
   "property": "C27",
   "status": "proved",
   "theorems": [
    "C27_sqr_accurate",
    "C27_sqr_special"
   ],
   "note": "Double accuracy 9*2^-106, normalised, nonnegative; special values for Double and Quad"
  },
  {
   "property": "C24",
   "status": "partial",
   "theorems": [
    "C24_powi_special",
    "C24_powi_total_partial",
    "C24_powi_min_refuted"
   ],
   "note": "the documented table holds for every base and exponent; the no-panic clause is false exactly for n = i32::MIN (debug panic, release gives 1/x)"
  },
  {
   "property": "C25",
   "status": "proved",
   "theorems": [
    "C25_powi_positive",
    "C25_powi_negative"
   ],
   "note": "n-th power within 10 n * 2^-106 for every 1<=n<=i32::MAX while |x^n| is in [2^-890,2^1010]; negative exponents 10 n + 17"
  },
  {
   "property": "C32",
   "status": "partial",
   "theorems": [
    "C32_parser_language",
    "C32_parser_errors",
    "C32_documented_accepted_partial",
    "C32_undocumented_accepted_refuted"
   ],
   "note": "exact language, errors and words proved for every text; every documented form is accepted, but texts without digits and with the sign after the point are accepted too (witnesses)"
  },
  {
   "property": "C33",
   "status": "partial",
   "theorems": [
    "C33_release_never_panics",
    "C33_debug_no_panic_partial",
    "C33_exponent_applied",
    "C33_exponent_overflow_refuted"
   ],
   "note": "release: never panics, any text; debug: panics exactly when exponent minus fraction digits is below i32::MIN (texts under 2^31 digits)"
  },
  {
   "property": "C34",
   "status": "proved",
   "theorems": [
    "C34_integer_literals_exact",
    "C34_zero_literals"
   ],
   "note": ""
  },
  {
   "property": "C35",
   "status": "proved",
   "theorems": [
    "C35_literals_accurate",
    "C35_extreme_exponents_refuted"
   ],
   "note": "error (10|E|+27)*2^-106 for net exponent |E|<=260; outside the window NaN witnesses"
  },
  {
   "property": "C36",
   "status": "proved",
   "theorems": [
    "C36_whitespace_case",
    "C36_underscores",
    "C36_leading_sign",
    "C36_leading_zeros"
   ],
   "note": ""
  },
  {
   "property": "C30",
   "status": "partial",
   "theorems": [
    "C30_double_rem_exact_partial",
    "C30_double_rem_refuted",
    "C30_quad_rem_refuted"
   ],
   "note": "exact floored modulus proved for integer operands |a| <= 2^100, 0 < |b| <= 2^50; outside it is false: 1 % 3e16 = 30000000000000001 and 3b % b = b are proved; Quad: only the counterexample"
  },
  {
   "property": "C31",
   "status": "proved",
   "theorems": [
    "C31_left_folds",
    "C31_double_sum_exact",
    "C31_double_product_exact",
    "C31_nan"
   ],
   "note": "any number of items"
  },
  {
   "property": "C28",
   "status": "partial",
   "theorems": [
    "C28_double_special_partial",
    "C28_double_accuracy",
    "C28_printer_exists",
    "C28_quad_special_partial",
    "C28_quad_accuracy_partial"
   ],
   "note": "Double: special values, and 2^-101 accuracy for high words in [2^-800, 2^800]; Quad: special values, and 2^-89 accuracy for values in [2^-91, 2^91] (its Newton iteration inherits the faulty mul_f64-based arithmetic, C54)"
  },
  {
   "property": "C67",
   "status": "proved",
   "theorems": [
    "C67_from_f64",
    "C67_quad_from_f64"
   ],
   "note": "under the stated contract on f64 printing (C28_printer_exists shows it can be met)"
  },
  {
   "property": "C29",
   "status": "proved",
   "theorems": [
    "C29_double",
    "C29_quad"
   ],
   "note": ""
  },
  {
   "property": "C43",
   "status": "proved",
   "theorems": [
    "C43_double_special",
    "C43_quad_special"
   ],
   "note": "exp is a total function of the model: its loop is bounded by the table"
  },
  {
   "property": "C44",
   "status": "proved",
   "theorems": [
    "C44_double_special",
    "C44_quad_special",
    "C44_double_bases",
    "C44_quad_bases",
    "C44_double_total",
    "C44_quad_total"
   ],
   "note": "never panics in release; in debug under a stated bound on f64::log2; the Newton loop is structurally bounded in the model"
  },
  {
   "property": "C45",
   "status": "partial",
   "theorems": [
    "C45_double_special",
    "C45_quad_special",
    "C45_double_panic_refuted",
    "C45_quad_panic_refuted"
   ],
   "note": "special values proved; totality is false (explicit finite arguments panic)"
  },
  {
   "property": "C46",
   "status": "proved",
   "theorems": [
    "C46_double",
    "C46_quad",
    "C46_refuted"
   ],
   "note": "complete table; two entries are not the angle: atan2(y, -inf) = 0 and atan2(0,0) = NaN"
  },
  {
   "property": "C47",
   "status": "proved",
   "theorems": [
    "C47_double",
    "C47_quad"
   ],
   "note": ""
  },
  {
   "property": "C48",
   "status": "partial",
   "theorems": [
    "C48_double_special_partial",
    "C48_quad_special_partial",
    "C48_double_sinh_returns"
   ],
   "note": "termination of the Quad sinh loop missing"
  },
  {
   "property": "C57",
   "status": "proved",
   "theorems": [
    "C57_double_integers",
    "C57_quad_integers",
    "C57_special"
   ],
   "note": ""
  },
  {
   "property": "C61",
   "status": "partial",
   "theorems": [
    "C61_double",
    "C61_quad_partial",
    "C61_quad_one",
    "C61_limits_refuted"
   ],
   "note": "every clause proved for both types except the limit at infinity, which is false for |base| < 1 (and 0^0 is NaN)"
  },
  {
   "property": "C62",
   "status": "partial",
   "theorems": [
    "C62_double",
    "C62_quad_partial",
    "C62_quad_sqrt",
    "C62_double_refuted",
    "C62_quad_refuted"
   ],
   "note": "all unary functions proved for both types; false for atan2 and powf"
  },
  {
   "property": "C37",
   "status": "proved",
   "theorems": [
    "C37_padding",
    "C37_padded_length",
    "C37_padded_keeps"
   ],
   "note": "Double and Quad, fixed and exponential; widths unbounded"
  },
  {
   "property": "C38",
   "status": "partial",
   "theorems": [
    "C38_zero",
    "C38_precision_partial",
    "C38_precision_refuted"
   ],
   "note": "proved for zero and whenever the extracted digits are proper decimal digits; false when a digit ten appears (1.0999999999999999928 with precision 5 prints six fraction digits)"
  },
  {
   "property": "C39",
   "status": "proved",
   "theorems": [
    "C39_rounding",
    "C39_digits_to_text"
   ],
   "note": "rounding half up with carry, and the digits-to-text chain, for all digit vectors"
  },
  {
   "property": "C40",
   "status": "partial",
   "theorems": [
    "C40_value_partial",
    "C40_log10_partial",
    "C40_value_refuted"
   ],
   "note": "Double, 1e-259..1e259, under an accuracy contract on the platform log10: within 2^-45 of a unit of the first digit always, within (210|e|+900)*2^-106 away from short decimals; false in general (three witnesses). Quad not covered"
  },
  {
   "property": "C41",
   "status": "partial",
   "theorems": [
    "C41_no_panic_partial",
    "C41_special_quad_partial",
    "C41_panic_refuted"
   ],
   "note": "Double: all options, specials and 1e-259..1e259; Quad: specials; false for the smallest subnormal"
  },
  {
   "property": "C42",
   "status": "partial",
   "theorems": [
    "C42_exp_partial",
    "C42_exp_refuted"
   ],
   "note": "one nonzero digit, or two only by a rounding carry with a precision; the carry case refutes the claim"
  },
  {
   "property": "C55",
   "status": "partial",
   "theorems": [
    "C55_from_double_total_partial",
    "C55_from_double_special",
    "C55_from_double_refuted"
   ],
   "note": "no panic and special values; the value is not preserved in general (1000 - 2^-44 becomes 100)"
  },
  {
   "property": "C64",
   "status": "partial",
   "theorems": [
    "C64_round_trip_partial",
    "C64_round_trip_refuted"
   ],
   "note": "2^-44 whenever the digits are proper, 2^-90 away from short decimals, decimal exponents -230..30; false in general"
  },
  {
   "property": "C49",
   "status": "proved",
   "theorems": [
    "C49_double_constants",
    "C49_quad_constants"
   ],
   "note": ""
  },
  {
   "property": "C65",
   "status": "partial",
   "theorems": [
    "C65_double_max",
    "C65_quad_max",
    "C65_min_positive",
    "C65_double_epsilon_refuted",
    "C65_quad_epsilon"
   ],
   "note": "MAX, MIN, MIN_POSITIVE proved; Double::EPSILON is not the documented 2^-104 (proved)"
  },
  {
   "property": "C66",
   "status": "proved",
   "theorems": [
    "C66_double_inverse_factorials",
    "C66_quad_inverse_factorials",
    "C66_double_sines",
    "C66_double_cosines",
    "C66_quad_sines_cosines"
   ],
   "note": "2^-104 for Double, 2^-212 for the Quad inverse factorials, 2^-210 for the Quad sines and cosines"
  },
  {
   "property": "C63",
   "status": "proved",
   "theorems": [
    "C63_exp_accuracy",
    "C63_exp_92"
   ],
   "note": ""
  },
  {
   "property": "C68",
   "status": "proved",
   "theorems": [
    "C68_ln_accuracy",
    "C68_contract"
   ],
   "note": "under log_close, a contract on f64::ln and f64::log2 shown satisfiable"
  },
  {
   "property": "C69",
   "status": "proved",
   "theorems": [
    "C69_log10_accuracy",
    "C69_log2_accuracy",
    "C69_log_accuracy"
   ],
   "note": "under log_close"
  },
  {
   "property": "C70",
   "status": "proved",
   "theorems": [
    "C70_powf_accuracy"
   ],
   "note": "under log_close"
  },
  {
   "property": "C71",
   "status": "proved",
   "theorems": [
    "C71_sin_accuracy",
    "C71_sin_small"
   ],
   "note": "under printer, the contract on f64 printing of C28 (not needed for |x| <= 0.098)"
  },
  {
   "property": "C72",
   "status": "proved",
   "theorems": [
    "C72_cos_accuracy"
   ],
   "note": "under printer"
  },
  {
   "property": "C73",
   "status": "proved",
   "theorems": [
    "C73_sin_cos_accuracy",
    "C73_unit_circle"
   ],
   "note": "under printer"
  },
  {
   "property": "C74",
   "status": "proved",
   "theorems": [
    "C74_tan_accuracy",
    "C74_tan_small"
   ],
   "note": "under printer"
  },
  {
   "property": "C75",
   "status": "proved",
   "theorems": [
    "C75_cosh_accuracy"
   ],
   "note": ""
  },
  {
   "property": "C76",
   "status": "proved",
   "theorems": [
    "C76_sinh_accuracy",
    "C76_sinh_small",
    "C76_sinh_cosh_accuracy"
   ],
   "note": "sinh_cosh under printer"
  },
  {
   "property": "C77",
   "status": "proved",
   "theorems": [
    "C77_tanh_accuracy"
   ],
   "note": "under printer"
  },
  {
   "property": "C78",
   "status": "proved",
   "theorems": [
    "C78_asinh_accuracy",
    "C78_asinh_negative",
    "C78_acosh_accuracy",
    "C78_atanh_accuracy",
    "C78_contracts"
   ],
   "note": "under printer and log_close (C78_contracts: both satisfiable together)"
  },
  {
   "property": "C79",
   "status": "proved",
   "theorems": [
    "C79_atan2_accuracy",
    "C79_angle",
    "C79_contracts"
   ],
   "note": "under printer and atan2_close (C79_contracts: both satisfiable together)"
  },
  {
   "property": "C80",
   "status": "proved",
   "theorems": [
    "C80_atan_accuracy"
   ],
   "note": "under printer and atan2_close"
  },
  {
   "property": "C81",
   "status": "proved",
   "theorems": [
    "C81_asin_accuracy"
   ],
   "note": "under printer and atan2_close"
  },
  {
   "property": "C82",
   "status": "proved",
   "theorems": [
    "C82_acos_accuracy"
   ],
   "note": "under printer and atan2_close"
  },
  {
   "property": "C83",
   "status": "proved",
   "theorems": [
    "C83_nroot_accuracy",
    "C83_cbrt_accuracy",
    "C83_contracts"
   ],
   "note": "under printer and root_close (C83_contracts: both satisfiable together)"
  },
  {
   "property": "C84",
   "status": "proved",
   "theorems": [
    "C84_double_sum"
   ],
   "note": "any sequence"
  },
  {
   "property": "C85",
   "status": "proved",
   "theorems": [
    "C85_double_product"
   ],
   "note": "any sequence"
  },
  {
   "property": "C86",
   "status": "proved",
   "theorems": [
    "C86_quad_product"
   ],
   "note": "any sequence"
  },
  {
   "property": "C87",
   "status": "proved",
   "theorems": [
    "C87_quad_mul_closed",
    "C87_quad_sqr_closed",
    "C87_canonical_closed"
   ],
   "note": "QFall in QuadSpec.v"
  },
  {
   "property": "C88",
   "status": "proved",
   "theorems": [
    "C88_quad_sqr"
   ],
   "note": ""
  },
  {
   "property": "C89",
   "status": "proved",
   "theorems": [
    "C89_quad_powi"
   ],
   "note": "positive exponents; negative ones in C96"
  },
  {
   "property": "C90",
   "status": "proved",
   "theorems": [
    "C90_quad_sum",
    "C90_quad_sum_sign"
   ],
   "note": "Steady in FoldSpec.v, QGeo in QuadSpec.v"
  },
  {
   "property": "C91",
   "status": "proved",
   "theorems": [
    "C91_quad_add_closed",
    "C91_quad_mul_closed",
    "C91_canonical_closed"
   ],
   "note": ""
  },
  {
   "property": "C92",
   "status": "proved",
   "theorems": [
    "C92_double_expression"
   ],
   "note": "ExprSpec.v; under printer (needed by sqrt)"
  },
  {
   "property": "C93",
   "status": "proved",
   "theorems": [
    "C93_quad_expression"
   ],
   "note": "ExprSpec.v; quotients and roots in C94"
  },
  {
   "property": "C94",
   "status": "proved",
   "theorems": [
    "C94_quad_expression",
    "C94_canonical_tame"
   ],
   "note": "QExprSpec.v; under printer (needed by sqrt)"
  },
  {
   "property": "C95",
   "status": "proved",
   "theorems": [
    "C95_quad_literals",
    "C95_quad_fractions"
   ],
   "note": "q_lit, sig_digits in QExprSpec.v"
  },
  {
   "property": "C96",
   "status": "proved",
   "theorems": [
    "C96_quad_recip",
    "C96_quad_negative_power"
   ],
   "note": ""
  },
  {
   "property": "C97",
   "status": "proved",
   "theorems": [
    "C97_quad_exp",
    "C97_quad_exp_computed",
    "C97_quad_exp_positive"
   ],
   "note": "near nonzero multiples of ln 2 the reduction cancels and the Quad sum loses its relative accuracy (C52), so they are excluded"
  },
  {
   "property": "C98",
   "status": "proved",
   "theorems": [
    "C98_quad_ln",
    "C98_quad_ln_computed",
    "C98_contract"
   ],
   "note": "arguments where a Quad sum in the Newton step (or in exp) cancels are excluded: there the Quad sum has no relative accuracy (C52)"
  },
  {
   "property": "C99",
   "status": "proved",
   "theorems": [
    "C99_quad_log10",
    "C99_quad_log2",
    "C99_quad_log"
   ],
   "note": "2^-91 comes from the proved accuracy of Quad division (C54)"
  },
  {
   "property": "C100",
   "status": "proved",
   "theorems": [
    "C100_quad_powf"
   ],
   "note": ""
  },
  {
   "property": "C101",
   "status": "proved",
   "theorems": [
    "C101_quad_cosh",
    "C101_quad_sinh",
    "C101_quad_sinh_small",
    "C101_quad_sinh_cosh",
    "C101_quad_tanh",
    "C101_quad_identity",
    "C101_contract"
   ],
   "note": "the bounds come from the proved accuracy of Quad division (C54)"
  },
  {
   "property": "C102",
   "status": "proved",
   "theorems": [
    "C102_quad_sin",
    "C102_quad_cos",
    "C102_quad_sin_cos",
    "C102_quad_tan",
    "C102_quad_sin_turns",
    "C102_quad_cos_turns",
    "C102_quad_sin_cos_turns",
    "C102_quad_tan_turns",
    "C102_contract"
   ],
   "note": "absolute accuracy up to 2^20; the proved bound grows with |x|; see C45 for the panics on huge arguments"
  },
  {
   "property": "C103",
   "status": "proved",
   "theorems": [
    "C103_ln_exp",
    "C103_exp_ln",
    "C103_sin_asin",
    "C103_cos_acos",
    "C103_sinh_asinh",
    "C103_tanh_atanh",
    "C103_cosh_acosh",
    "C103_sqr_sqrt",
    "C103_sqrt_sqr",
    "C103_quad_ln_exp",
    "C103_quad_exp_ln"
   ],
   "note": "composition of the accuracy theorems; the intermediate value is the one the library computes"
  }
 ]
}