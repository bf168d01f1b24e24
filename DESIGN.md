# Formal model of zcm (C++ vector/matrix/quaternion library)

## 1. What is modelled

Everything under `/repo/src` and `/repo/include/zcm` that computes a value:
vectors (`vec*`, `ivec*`, `bvec*`), their accessors and swizzles, `mat2/3/4`,
`matrix.cpp`, `matrix_transform.cpp`, `quat.cpp`, `quaternion.cpp`,
`common.cpp`, `geometric.cpp`, `exponential.cpp`, `angle_and_trigonometry.cpp`,
`component_wise.cpp`, `constants.cpp`, `color_space.cpp`, `hash.cpp`,
`type_ptr.cpp`.  Every Coq definition carries the file and lines it models.

The code is described twice.  `Model*.v` are Gallina functions, one per C++
function, about which the properties are stated.  `CppCode*.v` are the bodies of the
same functions as syntax trees, transcribed from the text by `tools/transcribe` (a parser
for the subset the library uses; it resolves overloads, writes out implicit conversions, and
expands macros and the applyOp templates).  `Cpp.v` gives the trees a semantics, and C86 proves
that running them is the model.  Hence a slip in a hand-written `Model*.v` definition cannot go
unnoticed for these 907 functions; what remains trusted for them is the transcription and `Cpp.v`.
`CppHash.v`, `CppHashCode.v` and C101 do the same for `hash.cpp`, the `std::hash` specialisations and `type_ptr.cpp`,
which need 64-bit integers, memory images and addresses.  `CppAccess.v`, `CppAccessCode.v` and C103 do it for the
accessor templates, the unions of the vector headers and `format_as`; their explicit instantiation macros only tell
the compiler where to emit code and are not transcribed.

Not modelled outside C86: the `no_init_t` constructors of `vec2/3/4`, `ivec2/3/4` and `quat` (they leave the
storage uninitialised, and the library itself never calls them; those of `mat2/3/4` give the zero matrix, because
the columns are default-constructed).  Not modelled: `format_as` (conversion for a printing library),
explicit template instantiations (`extern template`, `src/vec*_access.cpp`),
deleted constructors,
`test/`, `tools/`, `third_party/`, alignment attributes and calling conventions.

### One model, several number systems

All floating-point code is written once, in Coq sections over a record `Scalar`
(the arithmetic, comparison, rounding and C-math-library operations the code
uses).  It is then instantiated at

* `F32 L`: IEEE-754 binary32, Flocq's `binary_float 24 128` with round to nearest
  even, signed zeros, subnormals, infinities and one NaN; the C math library
  (`sinf`, `powf`, ...) is the arbitrary parameter `L`, so theorems about this
  instance hold for every libm;
* `RS`: Coq's real numbers, the exact-arithmetic meaning of the same code;
* `ES`: syntactic expressions, used to derive rounding-error bounds relating the
  first two by one theorem over all expressions.

Because the code is shared, a bug introduced in a definition changes all three.
Integers are `Z` with an `outcome` (`Ret`, `AssertFail`, `Undefined`) so that
overflow, division by zero, bad shifts, failed assertions and out-of-range
indexing are distinguishable results; `build` says whether assertions are on.
Hashes work on 32-bit patterns and 64-bit words.

### Trusted base

1. Coq 8.16.1's kernel (and `coqchk`); `vm_compute` is used.
2. The axioms printed by `Print Assumptions` under each theorem.  Only axioms of
   the Coq standard library occur: those of the classical reals
   (`ClassicalDedekindReals.sig_forall_dec`, `ClassicalDedekindReals.sig_not_dec`,
   `FunctionalExtensionality.functional_extensionality_dep`) and, through Flocq's
   and the standard library's real analysis, `Classical_Prop.classic`.  Theorems
   about integers, hashes, booleans and swizzles are closed.
   No axiom, parameter, module type or functor is declared here.
3. The reading of the C++: assumptions listed next.

### Assumptions on the platform

* `FLT_EVAL_METHOD == 0`, no contraction of `a*b+c`, no `-ffast-math`, rounding
  mode nearest-even, subnormals kept.  NaN payloads are not observable except
  through `hash`, which is modelled on bit patterns.
* `int` and `unsigned` are 32 bit, `size_t` 64 bit; `>>` of a negative int is
  arithmetic; `<<` follows C++14 (DR 1457).
* Reading the anonymous-union members (`_data`, `x`, `xy`, ...) is the type punning
  that GCC, Clang and MSVC define.
* libm functions are pure functions of their arguments.  `sqrtf`, `fabsf`, `floorf`,
  `ceilf`, `truncf`, `roundf`, `nearbyintf`, `fmaf` are exact as IEEE-754/C require.
* A decimal literal `...f` denotes the correctly rounded binary32 value.

## 2. Plan per property

| id | property | model and method |
|---|---|---|
| C01 | Vector arithmetic is componentwise | any Scalar (hence F32 and R): equality with a list/map specification, by computation |
| C02 | Compound assignment and increments agree with the binary operators | any Scalar; memory-cell state transformer with aliasing as an argument; computation |
| C03 | Constructors, named members and indices agree | any element type; constructors against list concatenation, index against nth |
| C04 | Swizzles read the components their name spells | swizzle tables extracted from the headers; name-driven specification; boolean check over the table lifted to all vectors by a reflection lemma; completeness over all words |
| C05 | Index operators are safe exactly on in-range indices | outcome monad, case analysis on the index, both builds |
| C06 | Writing one component leaves the others untouched | store model of the union; frame lemma per accessor and form; refutation for same-type accessor assignment |
| C07 | Equality is IEEE componentwise equality | F32 via Flocq comparison lemmas; Z and bool by decidable equality |
| C08 | Flat memory layout round trip | list memory; prefix/round-trip lemmas for every type |
| C09 | Integer vector arithmetic is exact or undefined, never silently wrapped | Z with range checks; iff characterisation of Undefined |
| C10 | Integer vector ordering is a strict total order | lexicographic order on lists of Z, order axioms by case analysis + lia |
| C11 | Boolean vectors: logic, conversion and reductions | finite boolean algebra plus Z conversion; De Morgan for all |
| C12 | Equal keys hash equally for exact types | congruence of hash on exact types |
| C13 | Equal float keys hash equally unless a zero differs in sign | bit patterns decoded through Flocq Bits; injectivity of decoding away from zero/NaN; refuted for signed zeros |
| C14 | Scalar hashes are injective | odd multiplier is invertible mod 2^32 and 2^64 |
| C15 | Structure of aggregate hash collisions | xor algebra on Z; OR masking collision constructed for every x |
| C16 | min, max and clamp select and bound | F32 comparisons + Z; order reasoning |
| C17 | abs, sign and signNotZero | F32 case analysis; Z with outcome |
| C18 | floor, ceil, trunc and round return the right integer exactly | Flocq Bnearbyint correctness: value is the real floor/ceil/trunc/nearest-away, stays finite |
| C19 | fract stays in [0,1] | F32: Sterbenz-type and monotonicity argument for the range; R exact; vm_compute witness for 1.0 |
| C20 | mod is the floored remainder | R with Flocq Zfloor; F32 refutation by vm_compute |
| C21 | roundEven rounds to a nearest even integer, not to the nearest integer | F32: exact halving/doubling and nearbyint; R characterisation |
| C22 | step and smoothstep are bounded ramps | F32: rounding monotonicity; R: monotonicity by polynomial inequality |
| C23 | mix interpolates | F32 exactness lemmas, R convexity, refutation witness |
| C24 | Classification and fused multiply-add | Flocq Bfma correctness, constructors |
| C25 | Relational functions match IEEE comparison | F32 comparison lemmas, NaN cases |
| C26 | Vector and quaternion overloads are the scalar function per component | any Scalar, list map/zip specification |
| C27 | exp2 is not a power of two | any libm: equality with expf; R: exp x = 2^x iff x=0 |
| C28 | sqrt and inversesqrt accuracy | Flocq Bsqrt/Bdiv error bounds; R identities |
| C29 | radians and degrees are inverse | constant enclosure of pi from the standard library plus relative error lemma |
| C30 | Named constants are the correctly rounded values | interval reasoning on PI, sqrt, ln, exp in the reals against the exact dyadic value |
| C31 | dot, length and distance laws | F32 commutativity; R algebra, Cauchy-Schwarz by sums of squares |
| C32 | length2 and distance2 are squared lengths except in dimensions 3 and 4 | R algebra; characterisation of the deviation |
| C33 | normalize yields a unit vector in the same direction | R algebra with sqrt; F32 computation for zero |
| C34 | cross product laws | R ring identities; F32 exact zero and sign symmetry |
| C35 | faceforward turns the normal against the incident vector | F32: negation commutes with rounding |
| C36 | reflect is an involutive isometry | R ring identities |
| C37 | refract obeys Snell's law | R algebra |
| C38 | orthogonal and orthogonal_branchless are perpendicular | R + F32 exact zero |
| C39 | Octahedral encoding | R case analysis; refutation on the lower hemisphere |
| C40 | Matrix ring laws | R: index-function matrices with finite sums as specification; ring |
| C41 | transpose is an involutive anti-automorphism | any Scalar + R |
| C42 | determinant | Leibniz formula over all permutations as specification; ring |
| C43 | inverse | R: field; F32 case analysis for the singular case |
| C44 | adjugate family | R: ring; characterisation for mat2 |
| C45 | Matrix division operators | R: from C43 |
| C46 | Matrix size conversions | any Scalar + outcome for the undefined constructor |
| C47 | matrixCompMult is the Hadamard product | any Scalar + F32 commutativity |
| C48 | translate, scale and rotate right-multiply the elementary transform | R: ring plus sin/cos identities |
| C49 | lookAt builds a rigid view transform | R: orthonormal frame lemmas |
| C50 | Orthographic projections map the view box to the clip box | R: field |
| C51 | Perspective projections map the frustum to the clip volume | R: field, monotonicity; outcome for the assertion |
| C52 | decompose_orthogonal recovers translation, rotation and scale | R: case analysis on the extraction branches |
| C53 | Quaternion product is Hamilton's | R: ring |
| C54 | Quaternion action is a rotation | R: ring |
| C55 | conjugate and inverse | R: field |
| C56 | Quaternion and matrix conversions are mutually inverse | R: four-branch case analysis, orthogonality identities |
| C57 | Angle-axis conversion | R: half-angle identities |
| C58 | Euler angles round trip | R: atan2/asin lemmas |
| C59 | Interpolation of quaternions | R: trigonometric identities; outcome for asserts |
| C60 | Rotation between two vectors | R: algebra |
| C61 | quatLookAt orients the z axis | R: orthonormal frame + C56 |
| C62 | Colour conversions keep alpha and range | any Scalar |
| C63 | Colour conversions with one gamma are not inverse | R: Rpower, refutation |
| C64 | Forward error bound of inner products | expression-level error theorem instantiated |
| C65 | Forward error bounds of polynomial functions | one induction over expressions, instantiated through ES |
| C66 | Exactness results in binary32 | F32 exactness lemmas |
| C67 | NaN propagates through algebraic operations | F32 case analysis on NaN |
| C68 | Integer common functions | Z with outcome |
| C69 | Component reductions | F32 order reasoning, Z |
| C70 | Entrywise matrix and quaternion operators, in place or not | any Scalar, list map specification; compound assignment on a memory cell with aliasing |
| C71 | Inputs below explicit bounds cannot overflow | one induction over expressions giving a magnitude bound |
| C72 | Accuracy of length, distance and normalize in binary32 | C64 + C71 + perturbation of the square root |
| C73 | Colour conversions against the sRGB standard | R: eighth/24th roots turn the curves into polynomials; polynomials bounded by exact Taylor expansion at midpoints of finitely many intervals |
| C74 | Projection matrices are accurate in binary32 | relative error calculus over F32 (RelLib): exact inputs, one rounding per operation |
| C75 | Accuracy of matrix inverses in binary32 | C65 and C71 for determinant and cofactors, then the quotient of two perturbed reals |
| C76 | Accuracy of rotations in binary32 | C65-style error of the arithmetic after sine, cosine and normalize, composed with C72 and a perturbation of the rotation matrix |
| C77 | Errors in chains of any length | invariant on the operator-norm error of the running product, by induction over the chain; C65 and C71 give one step |
| C78 | Sign symmetry in binary32 | induction over expressions with a parity analysis (SymLib), instantiated through ES; case analysis for the bit-for-bit laws |
| C79 | Integers and fixed-point numbers are computed exactly | induction over expressions with a grid invariant (GridLib): no step needs more than 24 bits |
| C80 | Scaling the inputs by powers of two scales the results exactly | induction over homogeneous expressions: rounding commutes with scaling on the grid where no step underflows (ScaleLib) |
| C81 | Rounding never breaks monotonicity where exact arithmetic is monotone | monotone roundings, induction over expressions without minus signs; nonnegative extended values for lengths (MonoLib) |
| C82 | Lengths dominate components and normalized components stay in [-1, 1] | in radix 2 the rounded square root of the rounded square is the number itself; x times the rounded reciprocal of l >= |x| rounds to at most 1 (MonoLib) |
| C83 | Guarded computations never leave their domain | a calculus of bounds 2^a for each operation (DomLib); the four candidates of quat_cast cannot all be negative after rounding |
| C84 | Encodings stay in their range in binary32 | the bounds calculus, x times the rounded reciprocal of l >= |x|, monotone rounding |
| C85 | Accuracy of converting a rotation matrix to a quaternion | the largest component is at least 1/2, so square root and quotient amplify errors boundedly; case analysis on the branch |
| C86 | The source text, executed statement by statement, does what the model says | symbolic execution of each body with calls answered by the model, then induction on the call depth with a congruence lemma for the semantics; types and failures by the same execution |
| C87 | Programs on top of the library that pass a simple check never abort and are never undefined | type soundness: induction over statements with a typing of environments; library calls discharged by C86 |
| C88 | Accuracy of spherical interpolation | the exact weight sin(sx)/sin x is Lipschitz in cos x (derivative bound); rounding of each factor relative to sin x; both branches compared with the same exact function |
| C89 | Accuracy of view transforms | vectors compared in the Euclidean norm: subtraction, cross product and normalize each map a relative error to a relative error, the last with factor 1/s; the exact frame is orthonormal, the quaternion by C85 |
| C90 | Accuracy of the octahedral encoding | relative error of the taxicab norm and its reciprocal; 1 - |x| - |y| keeps its sign because |y| is representable; points of the octahedron have length at least 1/sqrt 3; a witness for the equator |
| C91 | Accuracy of the rotation between two vectors | relative errors of the squared lengths and of their product; absolute error of the 4-vector before normalization against its exact length 2|u||v| cos(theta/2); Lipschitz bound of rotating a vector; separate bounds on each side of the branch |
| C92 | Euler angles in binary32 | quaternion of angles as a trilinear form of points of the unit circle, whose norm is the product of the lengths; absolute errors of the five matrix entries used by eulerAngles; perturbation of a direction divided by its distance to the origin; chords of half angles up to sign; exact round trip of C58; witness with noise entries at gimbal lock |
| C93 | Reflection and refraction in binary32 | absolute errors of the dot product, of the radicand and of its square root divided by the cosine of refraction; Snell direction split into the parts along and across the surface |
| C94 | Colour conversions in binary32 | relative perturbation of base and exponent of a power through ln and exp bounds; thresholds by monotonicity of rounding; s*exp(-s) <= 1/2 for the exponent error; round trip by exact cancellation of the two powers and interval bounds at the knee; nearest integer for levels |
| C95 | Ramps, interpolation and remainders in binary32 | relative rounding error of differences of floats, the derivative of the cubic bounded by its factored difference, monotonicity of rounding at the edges and at integers |
| C96 | Decomposition of transforms in binary32 | relative errors of the columns and of their lengths, the sign of the triple product bounded away from 0, then the perturbation form of C85 |
| C97 | Angle and axis of a rotation in binary32 | the sine of the half-angle from 1 - w^2 with its relative error, Lipschitz bounds of sine, cosine and arc cosine away from 1; rounding of the cosine to 1 below 2^-12 |
| C98 | Repeatedly updated orientations stay normalized and drift linearly | the direction of the float quaternion as invariant: multiplication by a unit quaternion is an isometry, so the error of a direction is passed on unamplified and each update adds a constant; induction over the updates; the five products of quat.cpp bounded together by |p|^2+|q|^2 |
| C99 | Depth and screen position of projected points in binary32 | rows of the matrix with their exact zeros reduced to one product, one sum and one quotient by an exact w; relative errors of the entries from C74; the ideal depths differ by w f n (1/d - 1/d')/(f-n), which the error bound is compared with; the counterexample by computation |
| C100 | Inverse quaternions and undoing a rotation in binary32 | inverse as four quotients by the rounded dot product; the exact inverse is a positive multiple of the conjugate; the rotation bound of C98 applied twice, with the exact rotations cancelling and the chord between the two unit quaternions carried as an extra term |
| C101 | The text of hash.cpp and type_ptr.cpp, executed, does what the model says | a second small syntax with 64-bit integers, memory images and addresses; symbolic execution of the transcribed text; bitwise complement and shift against the arithmetic definitions of the model |
| C102 | Points of the world seen through a camera in binary32 | entrywise errors of the view matrix (C89) and of the matrix-vector product (C65) combined by Cauchy-Schwarz; the depth is a Lipschitz function of 1/D, and C99 bounds the projection of the computed point |
| C103 | The text of the component accessors and swizzles, executed, does what the model says | a third small syntax for class templates with a semantics of instantiation, member lookup, hiding and overload resolution; execution of the transcribed text, induction over index packs, table equality for the unions |
| C104 | Linear interpolation of orientations and following a target in binary32 | componentwise rounding errors of lerp collected by the norm; perturbation of a unit vector (C72); in exact arithmetic a step contracts the distance by 1 - t/2, and induction over the steps with the fixed point of the affine bound |
| C105 | Values smoothed, damped or accumulated in a loop in binary32 | one rounded step as an affine contraction, then induction over the steps with the fixed point of the affine bound; loops over vectors are the loops over their components |
| C106 | Placing vertices by a rotation and a translation in binary32 | entrywise errors of the cast matrix (C65) relative to the unit quaternion; products with 0 and 1 are exact, so the matrix product only assembles the entries; Cauchy-Schwarz for the transform (C102) |
| C107 | Points carried up a scene hierarchy of any depth in binary32 | induction over the levels: a level adds the error of C106 and, being an isometry in exact arithmetic, passes the error so far on unchanged |
| C108 | From model coordinates to the depth buffer in binary32 | C107 bounds how far the computed world point is from the exact one; C102 holds at the computed point; the depth along the sight is 1-Lipschitz and the ideal depth a Lipschitz function of 1/D |
| C109 | Diffuse lighting in binary32 | perturbation of a unit vector for normalize (C72), the error of dot (C64) and Cauchy-Schwarz; clamp is exact; rotations keep inner products (C54) and C98 bounds the computed rotation |

## 3. Map of the development

* `Scalar.v`, `IEEE32.v`, `RealInst.v`, `ErrExpr.v`: the scalar interface and its three instances.
* `Types.v`, `Outcome.v`, `Int32.v`: data types, outcomes, checked 32-bit integers.
* `Model*.v`: the code, one file per group of source files; definitions only.
* `Cpp.v`, `CppNames.v`, `CppCode1-3.v`, `CppProgram.v`: syntax and semantics of the C++ subset, and the source as
  syntax trees.  `CppModel.v`: which model function belongs to which C++ function.  `CppTac.v`, `CppCong.v`,
  `CppAgree*.v`: proofs that they agree.  `SpecClient.v`, `ClientLib.v`: a checker for programs on top of the library, and its soundness.
* `Spec*.v`: vocabulary of the property statements.  It talks about lists of
  components, real numbers, permutations, IEEE order and so on, never about model functions.
* `FloatBasics.v`, `FloatOps.v`, `FloatAlg.v`, `F32Tac.v`: binary32 facts on top of Flocq.
* `RealTac.v`, `MatTac.v`, `RotLib.v`, `NumLib.v`, `GammaLib.v`, `PolyLib.v`, `SlerpLib.v`, `VecErrLib.v`, `QuatErrLib.v`, `AbsLib.v`: real-number lemmas.
  `GammaLib.v` uses Coquelicot's `auto_derive` for the limit defining the Euler constant;
  `PolyLib.v` bounds a polynomial on an interval by exact expansion at the midpoints of the intervals between given breakpoints.
* `OpLib.v`: matrices of dimension n as operators, used for chains of products.
* `ErrLib.v`, `OvfLib.v`, `LenLib.v`: rounding-error and overflow theorems for every expression
  built from + - *, and for square roots of sums of squares.  `RelLib.v`: relative errors of single operations.
  `SymLib.v`: sign symmetry of every expression.
  `GridLib.v`: exactness of every expression on fixed-point inputs. `ScaleLib.v`: exact scaling by powers of two.
  `MonoLib.v`: monotonicity, square roots of squares.
* `Pf*.v`: proofs.  `Prop*.v`: the property theorems, each closed by one lemma, with
  `Print Assumptions` and a concrete case beside it.

`C65_expressions` and `C71_expressions` are statements about all expressions.  To apply them to a library
function the function is run on syntax trees (`ES`), and its `F32` and `RS` instances are shown equal, by
computation, to the evaluation of that tree.

Where a property mentions rounding, the theorem is about `F32`; where it says "in exact
arithmetic" or is an algebraic law that binary32 breaks, it is about `RS`.
C64, C65, C71, C72 and C74 to C85 and C88 to C100, C102 and C104 to C109 connect the two for the functions they list.

### Simplifications

* Compound assignments (`v += w`, `v += v`, `v *= v.x`) are functions from the stored value and a
  reader of the right-hand side to the new stored value; the reader may look at the stored value while it
  is being updated, which is how aliasing is represented.  C86 justifies this for the compound assignments
  between objects of one class.
* References returned by `operator[]` and accessors are modelled as a read and a write function.
* Explicit `inline`/`constexpr`/calling-convention differences are ignored.

## 4. Where the code does not do what its name or documentation says

Proved about the faithful model; theorem names in brackets.

* `exp2(x)` computes e^x [C27].
* `distance2(vec3/vec4)` returns the distance, not its square [C32_distance2_refuted].
* `length(float)` returns its argument, also when it is negative [C32_distance2_is_distance].
* `roundEven` returns even integers only, so `roundEven(1) != 1` [C21].
* `sign(NaN)` and `signNotZero(NaN)` are -1 [C17].
* `fract` of a tiny negative number is 1.0f [C19_below_one_refuted]; `mod` can leave its range [C20_range_refuted].
* `mix(x, y, 1)` need not be `y` [C23_end_refuted].
* `operator[]` of 2-component types asserts `val < 3`, so index 2 passes the assertion and reads
  out of bounds [C05_dim2_guard_refuted].
* Assigning a swizzle accessor to another accessor of the same type copies the whole vector, not the
  named components [C06_same_accessor_refuted].
* `mat3(const mat2&)` reads a third column of the mat2 [C46_mat3_of_mat2_refuted].
* `hash(mat4)` ignores columns 1 and 2 [C15]; `0.0f == -0.0f` hash differently [C13_signed_zero_refuted].
* `adjugateTranspose(mat2)`/`inverseTranspose(mat2)` are not transposed [C44_mat2_transpose_refuted].
* mat4 `v * M` differs from `transpose(M) * v` by rounding [C40_left_product_mat4_refuted].
* `orthogonal_branchless` is zero on some nonzero vectors [C38_branchless_refuted].
* `decode_octahedral` is wrong on the lower hemisphere [C39_roundtrip_lower_refuted], and in binary32 also
  within a few rounding errors of the equator on the upper one: `(-2, 1, 2^-24)` comes back with `x` and `y` of the
  opposite signs [C90_equator_refuted].
* `eulerAngles` near gimbal lock: `pitch` tests its two entries against exact zeros (quaternion.cpp 24) and `roll` has no
  test at all. For the float quaternion nearest to x = 0.65328151, y = w = 0.270598054, z = -x the entries are rounding
  noise (2^-25 and 0), pitch and roll both come out as 0, and `quat(eulerAngles(q))` is a different rotation
  [C92_gimbal_refuted]. Away from gimbal lock the round trip is accurate [C92_roundtrip].
* `decompose_orthogonal` of a matrix with a zero column divides by that column's length: `diag(0,1,1)` gives the right scale
  and an orientation of NaNs [C96_zero_column_refuted].
* Depth order is lost between points that are too close: with `perspectiveRH_ZO(fovy, aspect, 1, 100)` the point at distance
  2082283/65536 gets a strictly smaller depth than the nearer one at 16658263/524288 (C99_close_points_refuted). C99_order
  gives the margin beyond which the order is right.
* `angle` and `axis` lose small rotations: `angleAxis(a, n)` with |a| <= 2^-12 has the real part 1 (with a correctly rounded
  `cosf`), so the axis comes back as (0,0,1) and the angle as `2 acosf(1)` [C97_small_rotation_refuted].
* `nlerp` does not take the shorter way round, unlike `slerp`: `nlerp(q, -q, 0.5)` is NaN although both ends are the same rotation
  [C104_opposite_refuted].
* Loops come to rest early: `x = mix(x, 1, 1/8)` stays at the predecessor of 1, `v = v * 0.9f` never reaches 0, `t = t + 1` stands still
  at 2^24 [C105_rest_refuted].
* `perspective` accepts aspect 0 [C51_zero_aspect_refuted].
* `convertLinearToSRGB(c, Gamma)` raises to `Gamma`, not `1/Gamma` [C63_same_gamma_refuted]; the
  overload without exponent is negative on dark colours [C73_dark_refuted].
* `normalize` returns NaN or 0 for vectors whose squared length under- or overflows [C72_range_refuted];
  normalize(0) is NaN [C33].
* `smoothstep` is not monotone: a larger x can give a smaller result [C81_smoothstep_refuted].
* `angle(q * conjugate(q))` can call acos on a number above 1 although q was normalized [C83_angle_refuted].
* `normalize(41, 0)` is (0.99999994, 0), not (1, 0) [C82_axis_refuted].
* Multiplying by the identity quaternion changes some quaternions: the product scheme rounds [C66_identity_quaternion_refuted].
* `abs(INT_MIN)` is undefined [C68].
* `v.x = n` does not compile for the integer vectors: the implicit copy assignment of `scalar_accessor_Ni` hides
  `operator=(T)` of its base class [C103_int_assignment_refuted].

Seen while reading, not stated as theorems: the `%`, `|`, `&`, `^`, `<<`, `>>` operators of `ivec4` are declared
but never defined (a link error).

## 5. Testing the theorems

`seeded/LOG.jsonl` has one line per wrong program: the model definition edited in a scratch copy, the edit, the claim
it breaks, the theorems whose proofs then fail, and what was tightened when none did.  Most edits are
produced systematically (one operator, component, index, comparison, literal or callee changed per definition);
for those the run stops at the second failing theorem, so `failed` lists at least one of the theorems that
fail, not all of them.
