# A Rocq model of Barandis/qd

Source: `/repo` (Rust crate `qd`, pinned commit), read as text. Model and proofs: `rocq/theories/`.

## 1. What is modelled

| file | models | contents |
|---|---|---|
| `F64.v` | Rust `f64` (std) | `f64 := binary_float 53 1024` of Flocq's `IEEE754.BinarySingleNaN`; `+ - * /`, `mul_add`, `sqrt`, `floor/ceil/trunc/round`, comparison, `abs`, casts, `powi`, decimal literals |
| `Prim.v` | `common/primitive.rs`, `common/utils.rs` | error-free transforms and renormalisation |
| `DoubleM.v` | `double.rs`, `double/{add,sub,mul,div,rem,neg,comp,misc,alg,iter,index,from}.rs` | the `Double` type, operators, comparison, `misc`, `alg`, integer conversions |
| `QuadM.v` | `quad.rs`, `quad/{…}.rs` | the `Quad` type, same |
| `ParseM.v` | `double/from_str.rs`, `quad/from_str.rs`, `error.rs` (kinds), `From<&str>`, `From<f64>` | the parser, one program over two number types |
| `ConstM.v` | `double/aconsts.rs`, `quad/aconsts.rs`, `double/common.rs`, `quad/common.rs` | constants and tables, generated from the source literals |
| `AlgM.v` | `double/alg.rs`, `quad/alg.rs` | `sqrt`, `cbrt`, `nroot` |
| `DisplayM.v` | `common/display.rs`, `double/display.rs`, `quad/display.rs` | formatting |
| `TransM.v` | `double/{trans,trig,hyper}.rs`, `quad/…` | transcendental functions (special cases, loops) |
| `Spec.v`, `ParseSpec.v`, `DisplaySpec.v` | nothing | the small independent specifications: real value of a Double/Quad, "normalised", relative error, integer part, decimal value of digits, the number grammar |
| `RN.v`, `F64Facts.v`, `EFT.v`, `DWAdd.v`, `Sim.v`, `Check.v`, `Exact.v` | – | rounding to nearest, IEEE facts, error-free transforms, sign symmetry relation, computable checkers used for witnesses |
| `D*Proofs.v`, `Q*Proofs.v`, `*Proofs.v`, `*Thms.v`, `Witness.v`, `QuadWit.v`, `ParseEquiv.v`, `ParseNum.v`, `IntOrder.v` | – | lemmas |
| `Display{Proofs,Text,Thms,Digits,Num,Parse,More,Log,Wit,Cases}.v`, `ExtractProofs.v`, `MulAny.v` | – | formatting: padding, rounding, digits to text, the extraction loop's error, texts as parser input, log10 contract, witnesses |
| `NoFma.v`, `Rem{Proofs,Thms}.v`, `FromProofs.v`, `Trans{Proofs,More,Thms}.v`, `TrigProofs.v` | – | Dekker product, remainder, `From<f64>`, transcendental special cases |
| `QuadSpec.v` | nothing | specification vocabulary for Quads: `QDec k` (each component at most 2^-k of the one before), component lists |
| `QAdd{Acc,Thms,Comm}.v`, `QMul{Acc,Thms,Fine}.v`, `QAccThms.v` | – | error analysis of Quad `+` and `*`: unordered quick sums, the accumulator loop, renormalisation |
| `ConstSpec.v` | nothing | which real number each published constant stands for |
| `BaseConst.v`, `Const{Proofs,More}.v`, `TableProofs.v`, `TableQuad.v` | – | constants and tables |
| `P_*.v` | – | property theorems only, each closed by named lemmas, with `Print Assumptions` and non-vacuity `Example`s |

Every definition cites the file and lines it models.

### Modelling decisions
* `f64` arithmetic is IEEE-754 binary64, round-to-nearest-even, one NaN (payload and sign of NaN not modelled: `is_sign_negative` of NaN is `false`).
* `mul_add` is a correctly rounded fused multiply-add (Rust guarantees it). The `cfg(no_fma)` code is modelled separately.
* Functions of the platform's libm (`ln`, `exp`, `log10`, `log2`, `atan2`, `sinh`..), and Rust's `f64::to_string`, are an *oracle record*: theorems quantify over every oracle, or state the contract on it that they need as a hypothesis.
* `f64::powi` is compiler-rt's `__powidf2` (square-and-multiply, then reciprocal for a negative exponent), which is what LLVM emits when the exponent is not a constant.
* A panic is an explicit value: `outcome A := Val a | Panicked`. Integer-overflow behaviour (panic with debug assertions, wrap without) is a boolean parameter.
* `&mut self` operators become functions returning the new value.

## 2. Trusted base
* Coq 8.16.1's kernel (and its `vm_compute`).
* Axioms, as listed by `Print Assumptions` (all from the standard library): the classical reals (`ClassicalDedekindReals.sig_forall_dec`, `sig_not_dec`), `functional_extensionality_dep`, `Classical_Prop.classic`.
* Flocq 4.1's definition of binary64 (proved correct there w.r.t. rounding of reals).
* The reading of the Rust source into Gallina. The code is not run.

## 3. Plan per property

| id | model | proof |
|---|---|---|
| C01, C02 | `dadd`, `dsub` | AccurateDWPlusDW; Fast2Sum/TwoSum from Flocq's Pff; generalised Fast2Sum under cancellation |
| C03 | `dmul` | error analysis with FMA two_prod |
| C04 | `ddiv` | long division, three quotient digits |
| C05, C06, C58 | same | EFT exactness (also the Dekker variant) |
| C07, C08 | same, all specials | case analysis on classes |
| C09 | `dadd`, `dmul` | expected refuted (NaN) by witness |
| C10, C11, C12 | `d_eq`, `d_partial_cmp`, quad versions | normal form ⇒ lexicographic = real order |
| C13 | `dadd`, `dmul`, `qadd`, `qmul` | + by commutativity of two_sum on the results; × refuted by witness |
| C14, C15, C26 | | sign symmetry of rounding; exactness |
| C16–C18 | `from_u64` .. | exactness of the split and renormalisation |
| C19–C22 | `d_floor` .. | floor of hi / lo; refuted where EPSILON test is wrong; proved on the complement |
| C23 | `d_ldexp` | powi of 2 exact, scaling exact |
| C24, C25 | `d_powi` | table by cases; loop invariant s·r^i = x^n with error accumulation |
| C27 | `d_sqr` | error analysis |
| C28, C29, C67 | `d_sqrt`, `d_nroot`, `d_from_f64` | special values; `SqrtProofs.v`: accuracy of `Double::from(f64)` and of the Karp step, under the contract `printer` on `f64::to_string` (plain notation, <= 17 significant digits, reads back), which `Printer.v` shows can be met |
| C30 | `d_rem` | unfolding, exact integer case |
| C31 | `d_sum`, `d_product` | fold; induction |
| C32–C36 | `d_from_str` over a character list | state machine vs independent grammar; decimal value by induction |
| C37–C39, C42 | display helpers on digit vectors | list induction |
| C40, C41, C64 | `d_display` | forward error analysis of the extraction loop under `log10_close`/`decade` (explicit hypotheses about the platform's `f64::log10`), refuted by witness elsewhere |
| C43–C48 | `TransM` | case analysis, loop termination by fuel bound |
| C63 | `d_exp` | `AbsOps.v`: absolute-error forms of +, ×, square, doubling, halving; `ExpProofs.v`: Taylor remainder (mean value theorem), loop invariant, nine squarings; `ExpThms.v`: argument reduction, all-tiny arguments, final scaling |
| C68, C69, C70 | `d_ln`, `d_log10`, `d_log2`, `d_log`, `d_powf` | `LnThms.v`: one Newton step contracts quadratically up to the error of exp; both exits of the loop; quotients; `log_close` is an explicit contract on `f64::ln`/`f64::log2`, met by `with_logs` (`LogLib.v`) |
| C71–C74 | `d_reduce`, `d_taylor_loop`, `d_sin_taylor`, `d_cos_taylor`, `d_sin`, `d_cos`, `d_sin_cos`, `d_tan` | `SinLoop.v`: loop invariant against the partial sums; `SinSeries.v`: alternating remainders; `SinReduce.v`: reduction by whole turns, quarter turns and sixteenths with the accuracy of the constants (C49) and of the tables (C65); `SinThms.v`: addition formulas, quotient |
| C75–C78 | `d_cosh`, `d_sinh`, `d_sinh_loop`, `d_sinh_cosh`, `d_tanh`, `d_asinh`, `d_acosh`, `d_atanh` | `RelOps.v`: operations on operands that are approximations; `HypProofs.v`: the sinh loop stops within ten iterations and sums the series; `HypThms.v`, `HypMore.v`, `HypInv.v`: exp, sqrt and ln theorems composed |
| C79–C82 | `d_atan2`, `d_atan2_step`, `d_pre_atan2`, `d_atan`, `d_asin`, `d_acos` | `AtanReal.v`: the real angle of a point and how it moves with the point; `AtanThms.v`: one Newton correction, `DivTiny.v`: division of tiny dividends; `AtanMain.v`, `AtanOuter.v`: assembly over all quadrants and special cases |
| C83 | `d_nroot`, `d_cbrt` | `NrootProofs.v`: second-order error of the Newton step for x^-n, its rounding, the starting value from `f64::ln`/`f64::exp` (`root_close`, met by `with_roots` in `LibNear.v`) |
| C84, C85, C86 | `d_sum`, `d_product`, `q_product` | exact sum and product of a list in `FoldSpec.v`; `FoldProofs.v`: error growth of a left fold for any step; `FoldThms.v` instantiates it with d_add, d_mul and `q_mul_fall` |
| C87, C88 | `q_mul`, `q_sqr` | `QFall` (in `QuadSpec.v`: components fall off by k bits, the third also against the second); `QFallAcc.v`: every quick sum keeps |e| <= 6u|s|, so renorm5 falls off; `QFallThms.v`, `QSqrAcc.v`: bounds of all partial sums, grid argument for the second component |
| C89 | `q_powi` | `QPowProofs.v`: binary powering with invariant s = x^p(1+d)^a, on QFall |
| C90, C91 | `q_sum`, `q_add` | Sum over any sequence without near-total cancellation (`P_Sum.v`): the class `QGeo` is closed under `q_add` (`QGeoAcc.v`, from the shape of what reaches `renorm4`), then induction over the fold with the invariant that the accumulator is within `k * 2d` of the exact partial sum (`QSumProofs.v`) |
| C92, C93 | expressions over `d_neg`, `d_add`, `d_sub`, `d_mul`, `d_div`, `d_sqrt`; `q_neg`, `q_add`, `q_sub`, `q_mul` | Expression trees, their evaluation with the modelled operators and their exact value are defined in `ExprSpec.v`; induction over the tree with the invariant that the computed value is within `((1+eps)^cost - 1)` of the exact one (`ExprProofs.v`, `P_Expr.v`); for Quad the class `QGeo` is the loop invariant (`QGeoAcc.v`, `QGeoMul.v`) |
| C94, C95, C96 (and C28, C54, C67 for Quad) | `q_div`, `q_mul_f64`, `q_sqrt`, `q_sqrt_step`, `q_recip`, `q_powi` (n < 0), `q_from_f64`, `from_str q_ops` | `QLoose.v`: addition and renormalisation on operands known only by two magnitudes (leading, rest); `QLDiv.v`: each step of the long division reduces the remainder, and what `mul_f64` loses; `QLOps.v`, `QLSqrt.v`: product, sum, square on the class `QL d` (low components at most d of the leading one); `QLRoot.v`, `QLSq.v`: one Newton step contracts to 80000 u^2, the starting value, halving; `QParse.v`: digit accumulation and the power of ten; `QExprSpec.v`, `QExprProofs.v`, `P_QExpr.v`: induction over expression trees |
| C97 | q_exp: reduction, Taylor loop with its stopping test, 16 squarings, ldexp | relative error calculus `rl` (2^-146 per product, 2^-137 per non-cancelling sum) on the class QGeoS; loop invariant against `esum`; induction over the squarings with the factor exp(2 s (2^n - 1)) |
| C98 | q_ln: f64 seed, Newton loop with its stopping test | explicit contract `log_tight` on f64::ln and f64::log2, met by `with_tight`; one Newton step contracts the error quadratically up to (5.1 l + 66) 2^-137 (`nstepQ_ok`, on top of C97); the stopping test is used through the leading component of a cancelling sum (`q_add_head`) |
| C99 | q_log10, q_log2, q_log | C98 and the division bound of C54 on Quads with small low parts |
| C100 | q_powf | C98, the product bound of C91 and C97 composed |
| C101 | q_cosh, q_sinh (both branches), q_sinh_cosh, q_tanh | C97, the reciprocal bound of C94 and the error of a mildly cancelling sum of Quads with small low parts (`q_add_Lc`); the Taylor loop by an invariant on the partial sum and the term, which also gives termination within 20 iterations (`q_sinh_loop_ok`) |
| C102 | q_round, q_reduce, q_sin_taylor, q_cos_taylor, q_sincos_taylor, q_cos_sin_entry, q_sin, q_cos, q_sin_cos, q_tan | sums and products of Quads whose head may cancel, with absolute bounds on every component (`badd`, `bmul` from the renormalisation lemmas); the quotient digits j and k by a floor argument; both tables from C29; the Taylor loops by an invariant on partial sum and term; then the addition formulas; for larger arguments the whole turns are removed by the exact integer `q_round` and the product 2*PI*k, with the error carried through the Lipschitz bound and periodicity |
| C103 | d_exp, d_ln, d_asin, d_sin, d_acos, d_cos, d_asinh, d_sinh, d_atanh, d_tanh, d_acosh, d_cosh, d_sqrt, d_sqr, q_exp, q_ln | the accuracy theorems C63, C68, C71, C27, C28, C72, C75, C76, C77, C78, C81, C82, C97, C98 composed, with the outer real function's sensitivity bounded (`ln_of_rel`, `exp_of_abs`, `sinh_of_abs`, Lipschitz bounds for sin and cos) |
| C49, C65, C66 | `ConstM`, `ConstSpec` | 260-bit enclosures of pi, ln 2, ln 10, e by series in integer arithmetic (`BaseConst.v`), then linear arithmetic; half-angle formulas for the Double sine table; rotation recurrence in 248-bit integers for the Quad tables; rounding argument for MAX |
| C50, C51, C56, C57 | | case analysis |
| C52–C55, C59 | `QuadM` | error analysis where true, `_refuted` witnesses where false |

Properties whose full statement is false of the code are kept in `properties.jsonl` and proved as `…_refuted` with a concrete witness, together with the strongest true part.
