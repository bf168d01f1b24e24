{"id": "C01", "title": "Vector arithmetic is componentwise", "statement": "For vec2, vec3 and vec4, each component of u+v, u-v, u*v, u/v, u op s, s op u, +u and -u is the single binary32 result of the same scalar operation on the corresponding components, with no other component, no reordering and no extra rounding involved.", "quantifier": "every pair of vectors and every scalar, finite, subnormal, infinite or NaN", "why_tests_cant": "the operand space is infinite (over 2^64 bit patterns for two floats), so a test samples it while the claim is about every operand", "anchors": ["include/zcm/detail/impl_op_macro.hpp", "src/vec2.cpp", "src/vec3.cpp", "src/vec4.cpp"]}
{"id": "C02", "title": "Compound assignment and increments agree with the binary operators", "statement": "u op= v and u op= s leave in u exactly the value u op v (u op s) had before the call, also when the right operand is u itself or one of u's own components; ++u, u++, --u and u-- add or subtract one in every component and return the new (prefix) or old (postfix) value.", "quantifier": "every vector, every right operand and every aliasing between the two sides", "why_tests_cant": "aliasing and NaN cases multiply with every operand value; tests fix a handful", "anchors": ["include/zcm/detail/impl_op_macro.hpp", "src/vec2.cpp operator++", "src/vec3.cpp operator++", "src/vec4.cpp operator++", "src/quat.cpp operator*="]}
{"id": "C03", "title": "Constructors, named members and indices agree", "statement": "Every vector constructor (default, broadcast, per component, and every concatenation such as vec4(vec2,float,float) or vec4(float,vec3)) lays its arguments out left to right in x,y,z,w; v[i] reads the i-th named component; x/r/s, y/g/t, z/b/p, w/a/q name the same storage.", "quantifier": "every constructor overload, every argument value and every valid index", "why_tests_cant": "the claim ranges over all argument values and all overloads together", "anchors": ["src/vec2.cpp", "src/vec3.cpp", "src/vec4.cpp", "src/ivec2.cpp", "src/ivec3.cpp", "src/ivec4.cpp", "src/bvec4.cpp", "include/zcm/vec4.hpp"]}
{"id": "C04", "title": "Swizzles read the components their name spells", "statement": "Reading any swizzle member (v.zyx, v.rgba, v.qpts, ...) yields a vector whose i-th component is the component named by the i-th letter; the name set is exactly all words over each naming alphabet without letters outside the vector, for each length declared.", "quantifier": "every swizzle name declared in the headers and every vector value", "why_tests_cant": "over a thousand declared names, each a separate type with hand-written indices, times every vector value", "anchors": ["include/zcm/vec2.hpp", "include/zcm/vec3.hpp", "include/zcm/vec4.hpp", "include/zcm/ivec2.hpp", "include/zcm/ivec3.hpp", "include/zcm/ivec4.hpp", "include/zcm/detail/vec2_access.hpp shuffle_accessor_2"]}
{"id": "C05", "title": "Index operators are safe exactly on in-range indices", "statement": "operator[] on a vector, matrix or quaternion never traps nor touches memory outside the object when the index is below the dimension. In a debug build an out-of-range index is stopped by the assertion for vec3, vec4, ivec3, ivec4, mat*, quat and bvec3/bvec4; the dimension-2 types accept index 2 although no such component exists, so vec2[2] and ivec2[2] read past the object and bvec2[2] silently aliases y.", "quantifier": "every type with operator[], every unsigned index and both build modes", "why_tests_cant": "2^32 indices and undefined behaviour that a test cannot observe reliably", "anchors": ["src/vec2.cpp operator[]", "src/ivec2.cpp operator[]", "src/bvec2.cpp operator[]", "src/mat2.cpp operator[]", "src/quat.cpp operator[]"]}
{"id": "C06", "title": "Writing one component leaves the others untouched", "statement": "Assigning a scalar, or a component accessor of a different name, to v.x (or v[i]) or applying a compound operator changes that component only. Assigning the same-named accessor of another vector (u.x = v.x) instead copies every component, and assigning equal swizzles (u.xy = v.xy) copies the whole vector.", "quantifier": "every component, every assignment form (=, +=, -=, *=, /=, %=, |=, &=, ^=, <<=, >>=, ++, --) and every pair of vectors", "why_tests_cant": "it must hold for every pair of vectors and form; the failing form looks identical in source text", "anchors": ["include/zcm/detail/vec2_access.hpp scalar_accessor_2", "include/zcm/detail/vec3_access.hpp", "include/zcm/detail/vec4_access.hpp"]}
{"id": "C07", "title": "Equality is IEEE componentwise equality", "statement": "For float vectors, matrices and quaternions a == b holds iff every pair of corresponding components compares equal under IEEE rules (so +0 equals -0 and any NaN makes it false), a != b is always the negation, == is symmetric, transitive, and reflexive exactly on NaN-free values; for ivec and bvec it is exact identity.", "quantifier": "every pair or triple of values including NaN, signed zeros and infinities", "why_tests_cant": "the operand space is infinite (over 2^64 bit patterns for two floats), so a test samples it while the claim is about every operand", "anchors": ["src/vec2.cpp operator==", "src/vec3.cpp operator==", "src/vec4.cpp operator==", "src/mat4.cpp operator==", "src/quat.cpp operator==", "src/ivec3.cpp operator=="]}
{"id": "C08", "title": "Flat memory layout round trip", "statement": "value_ptr(v) addresses the components in index order (matrices column after column), and make_vecN/make_ivecN/make_bvecN/make_matN/make_quat applied to that storage rebuild the original value; make_* reads exactly the first n elements.", "quantifier": "every value of every vector, matrix and quaternion type and every longer buffer", "why_tests_cant": "quantifies over all contents and over unrelated trailing memory", "anchors": ["src/type_ptr.cpp", "src/mat2.cpp make_mat2", "src/mat3.cpp make_mat3", "src/mat4.cpp make_mat4", "src/quat.cpp make_quat"]}
{"id": "C09", "title": "Integer vector arithmetic is exact or undefined, never silently wrapped", "statement": "For ivec2, ivec3 and ivec4 the operators + - * / and unary -, and for ivec2 and ivec3 also % | & ^ << >>, produce in every component the exact mathematical integer (truncated quotient, remainder with the dividend's sign, two's complement bit operations; a left shift whose exact value lies in [2^31, 2^32) wraps once, as C++14 has it). They are undefined exactly when some component's operation overflows int, divides by zero, shifts by a count outside 0..31, or shifts a negative value or a value whose shift needs more than 32 bits to the left. ivec4 declares % | & ^ << >> without defining them.", "quantifier": "every pair of int vectors and every scalar", "why_tests_cant": "2^64 pairs per component; undefined behaviour is not observable by running a test", "anchors": ["src/ivec2.cpp", "src/ivec3.cpp", "src/ivec4.cpp", "include/zcm/detail/impl_op_macro.hpp"]}
{"id": "C10", "title": "Integer vector ordering is a strict total order", "statement": "operator< on ivec2/3/4 is the lexicographic order: irreflexive, transitive, total, compatible with ==; <=, >, >= are the derived relations, so the types are usable as std::map keys and with std::sort.", "quantifier": "every pair and triple of int vectors", "why_tests_cant": "transitivity ranges over triples: 2^192 or more", "anchors": ["src/ivec2.cpp operator<", "src/ivec3.cpp operator<", "src/ivec4.cpp operator<"]}
{"id": "C11", "title": "Boolean vectors: logic, conversion and reductions", "statement": "&&, ||, ^, ! and the compound &=, |=, ^= (with vector or scalar operand) act componentwise as the Boolean connectives and satisfy De Morgan's laws; all(v) is true iff every component is, any(v) iff some component is, any(v) == !all(!v); converting an ivec to bvec tests each component for nonzero.", "quantifier": "every boolean vector pair and every int vector", "why_tests_cant": "universal over every operand and every lane of every operator; also over all int values in the conversion", "anchors": ["src/bvec2.cpp", "src/bvec3.cpp", "src/bvec4.cpp", "src/common.cpp all", "src/common.cpp any", "src/ivec2.cpp operator bvec2"]}
{"id": "C12", "title": "Equal keys hash equally for exact types", "statement": "For bool, int, unsigned, bvec and ivec values, a == b implies hash(a) == hash(b), so they are valid unordered-container keys.", "quantifier": "every pair of values", "why_tests_cant": "must hold for every pair of keys ever inserted", "anchors": ["src/hash.cpp", "include/zcm/hash.hpp"]}
{"id": "C13", "title": "Equal float keys hash equally unless a zero differs in sign", "statement": "For float, vec, quat and mat keys that compare equal, the hashes are equal whenever no component pairs +0 with -0; float keys +0 and -0 compare equal but hash differently, so the hash/equality contract of unordered containers is violated on exactly such pairs.", "quantifier": "every pair of float keys comparing equal, by bit pattern", "why_tests_cant": "needs every bit pattern pair; the counterexample is a signed zero", "anchors": ["src/hash.cpp float_hash", "src/hash.cpp hash(float)", "src/vec3.cpp operator=="]}
{"id": "C14", "title": "Scalar hashes are injective", "statement": "Distinct int values, distinct unsigned values, distinct float bit patterns and the two bools never collide; the hashes of float, vec and quat are the stated bit patterns (the float's bits, complemented in the upper half, combined by shifts, or and xor).", "quantifier": "every pair of 32-bit inputs", "why_tests_cant": "collision freedom over 2^64 pairs cannot be sampled", "anchors": ["src/hash.cpp hash(int)", "src/hash.cpp hash(unsigned)", "src/hash.cpp hash(float)", "src/hash.cpp hash(bool)"]}
{"id": "C15", "title": "Structure of aggregate hash collisions", "statement": "Changing only y, only z or only w of a vec2/vec3/vec4/quat always changes its hash, whereas for every y whose scalar hash has a nonzero upper half and every x some other x' gives vec2(x,y) and vec2(x',y) the same hash (the fields are OR-ed without masking); hash(mat4) does not depend on columns 1 and 2; the hash of an ivec or bvec is invariant under permuting components and hash(ivec2(a,a)) is 0 for every a; hash(mat2) and hash(mat3) are invariant under permuting columns and hash(mat2) is 0 whenever both columns coincide.", "quantifier": "every matrix and vector value, by bit pattern", "why_tests_cant": "a collision family, or its absence, is a universally quantified statement", "anchors": ["src/hash.cpp hash(vec2)", "src/hash.cpp hash(vec3)", "src/hash.cpp hash(mat4)", "src/hash.cpp hash(ivec2)"]}
{"id": "C16", "title": "min, max and clamp select and bound", "statement": "min and max return one of their arguments, the smaller or larger one when both are numbers, and the first argument when the other is NaN or either comparison is false; clamp(x,lo,hi) lies in [lo,hi] for every x that is a number whenever lo <= hi, equals x when x is already inside, and is idempotent; vector forms act componentwise.", "quantifier": "every float and int argument, NaN and infinities included, every lo <= hi", "why_tests_cant": "the operand space is infinite (over 2^64 bit patterns for two floats), so a test samples it while the claim is about every operand", "anchors": ["src/common.cpp min", "src/common.cpp max", "src/common.cpp clamp"]}
{"id": "C17", "title": "abs, sign and signNotZero", "statement": "abs clears the sign of every float and is exact; abs(int) is exact except for INT_MIN, which is undefined; sign(x) is -1, 0 or 1 according to the sign of a number; signNotZero maps zeros of both signs to +1; sign(x)*abs(x) == x for every finite x; for NaN both sign functions return -1.", "quantifier": "every float and every int", "why_tests_cant": "the operand space is infinite (over 2^64 bit patterns for two floats), so a test samples it while the claim is about every operand", "anchors": ["src/common.cpp abs", "src/common.cpp sign", "src/common.cpp signNotZero"]}
{"id": "C18", "title": "floor, ceil, trunc and round return the right integer exactly", "statement": "For every finite float, floor/ceil/trunc/round return, without rounding error or overflow, the largest integer below, the smallest integer above, the integer towards zero, and the nearest integer with ties away from zero; infinities and NaN pass through.", "quantifier": "every float", "why_tests_cant": "2^32 inputs per function and all vector combinations", "anchors": ["src/common.cpp floor", "src/common.cpp ceil", "src/common.cpp trunc", "src/common.cpp round"]}
{"id": "C19", "title": "fract stays in [0,1]", "statement": "fract(x) = x - floor(x) lies in [0,1] for every finite x and is 0 exactly when x is an integer; for x >= 0 it is exact and below 1. In exact arithmetic it is always below 1, but in binary32 it equals 1 for tiny negative x.", "quantifier": "every finite float", "why_tests_cant": "the operand space is infinite (over 2^64 bit patterns for two floats), so a test samples it while the claim is about every operand", "anchors": ["src/common.cpp fract"]}
{"id": "C20", "title": "mod is the floored remainder", "statement": "In exact arithmetic mod(x,y) = x - y*floor(x/y) lies in [0,y) for y > 0 and in (y,0] for y < 0 and differs from x by an integer multiple of y; in binary32 the range bound fails for some operands because x/y and the product are rounded.", "quantifier": "every real pair with y nonzero, and a binary32 counterexample", "why_tests_cant": "the operand space is infinite (over 2^64 bit patterns for two floats), so a test samples it while the claim is about every operand", "anchors": ["src/common.cpp mod"]}
{"id": "C21", "title": "roundEven rounds to a nearest even integer, not to the nearest integer", "statement": "For every finite x, roundEven(x) is an even integer at distance at most 1 from x; hence on odd integers it returns a different integer instead of the argument, contrary to GLSL roundEven, with which it agrees exactly on the inputs within 1/2 of an even integer.", "quantifier": "every finite float", "why_tests_cant": "the operand space is infinite (over 2^64 bit patterns for two floats), so a test samples it while the claim is about every operand", "anchors": ["src/common.cpp roundEven"]}
{"id": "C22", "title": "step and smoothstep are bounded ramps", "statement": "step(edge,x) is 0 if x < edge and 1 otherwise; smoothstep(e0,e1,x) with finite e0 < e1 whose difference does not overflow and x not NaN is 0 for x <= e0, 1 for x >= e1 and in [0,1] everywhere in binary32, and is monotone in x in exact arithmetic.", "quantifier": "every edge pair without overflow and every argument that is not NaN", "why_tests_cant": "the operand space is infinite (over 2^64 bit patterns for two floats), so a test samples it while the claim is about every operand", "anchors": ["src/common.cpp step", "src/common.cpp smoothstep"]}
{"id": "C23", "title": "mix interpolates", "statement": "mix(x,y,t) = x + t*(y-x): it returns x at t = 0 for all finite x,y whose difference does not overflow, x when x == y, in exact arithmetic y at t = 1 and a value between x and y for t in [0,1]; in binary32 mix(x,y,1) can differ from y; the boolean form selects y where the mask is true and x elsewhere, bit for bit.", "quantifier": "every x, y, t and mask", "why_tests_cant": "the operand space is infinite (over 2^64 bit patterns for two floats), so a test samples it while the claim is about every operand", "anchors": ["src/common.cpp mix"]}
{"id": "C24", "title": "Classification and fused multiply-add", "statement": "isnan and isinf decide exactly the NaN and infinite components; fma(a,b,c) is the correctly rounded value of a*b+c with one rounding for every finite triple without overflow; vector and quaternion forms act componentwise.", "quantifier": "every float and triple of floats", "why_tests_cant": "the operand space is infinite (over 2^64 bit patterns for two floats), so a test samples it while the claim is about every operand", "anchors": ["src/common.cpp isnan", "src/common.cpp isinf", "src/common.cpp fma"]}
{"id": "C25", "title": "Relational functions match IEEE comparison", "statement": "lessThan, lessThanEqual, greaterThan, greaterThanEqual, equal and notEqual are componentwise IEEE comparisons; all of them are false on NaN except notEqual, which is true; lessThan(a,b) == greaterThan(b,a); equal and notEqual are complementary; all(equal(a,b)) == (a == b).", "quantifier": "every pair of vectors including NaN", "why_tests_cant": "the operand space is infinite (over 2^64 bit patterns for two floats), so a test samples it while the claim is about every operand", "anchors": ["src/common.cpp lessThan", "src/common.cpp lessThanEqual", "src/common.cpp greaterThan", "src/common.cpp equal", "src/common.cpp notEqual"]}
{"id": "C26", "title": "Vector and quaternion overloads are the scalar function per component", "statement": "For every unary or binary math function of the library (trigonometric, hyperbolic, exponential, rounding, clamp, mod, step, smoothstep, mix, ...), the vecN or quat overload returns in component i exactly the scalar function applied to the i-th components, whatever the C library's implementation of the scalar function is.", "quantifier": "every function, every vector, and every implementation of the C math library", "why_tests_cant": "quantifies over libm implementations as well as inputs", "anchors": ["src/angle_and_trigonometry.cpp", "src/exponential.cpp", "src/common.cpp", "src/detail/utils.hpp"]}
{"id": "C27", "title": "exp2 is not a power of two", "statement": "exp2(x) returns the C library's expf(x) for every x; in exact arithmetic it equals 2^x only at x = 0 and is e^x everywhere.", "quantifier": "every input", "why_tests_cant": "a statement about all x; the deviation is zero at the only round test point 0", "anchors": ["src/exponential.cpp exp2"]}
{"id": "C28", "title": "sqrt and inversesqrt accuracy", "statement": "sqrt is correctly rounded on every float >= 0 and has the IEEE special cases; inversesqrt(x) = 1/sqrt(x) has relative error at most 2^-22 for every positive finite x, subnormals included, is an infinity at a zero, 0 at infinity and NaN on negatives; in exact arithmetic exp and log are mutually inverse, pow(x,y) = exp(y log x) for x > 0, and sqrt and cbrt invert square and cube.", "quantifier": "every float", "why_tests_cant": "the operand space is infinite (over 2^64 bit patterns for two floats), so a test samples it while the claim is about every operand", "anchors": ["src/exponential.cpp sqrt", "src/exponential.cpp inversesqrt", "src/exponential.cpp pow"]}
{"id": "C29", "title": "radians and degrees are inverse", "statement": "radians(d) and degrees(r) multiply by the floats nearest to pi/180 and 180/pi; radians has relative error at most 2^-22 for |d| >= 2^-119, degrees for 2^-125 <= |r| <= 2^120, neither overflowing there, and the round trips return to the input within relative error 2^-21.", "quantifier": "every float angle in the stated ranges", "why_tests_cant": "the operand space is infinite (over 2^64 bit patterns for two floats), so a test samples it while the claim is about every operand", "anchors": ["src/angle_and_trigonometry.cpp radians", "src/angle_and_trigonometry.cpp degrees"]}
{"id": "C30", "title": "Named constants are the correctly rounded values", "statement": "Each function in constants.hpp returns the binary32 number nearest to the real constant it documents (pi, e, square roots, logarithms, golden ratio, fractions), i.e. within half a unit in the last place.", "quantifier": "every constant, against its real-number definition", "why_tests_cant": "the claim compares with a real number (an infinite object), not with another float literal", "anchors": ["src/constants.cpp", "include/zcm/constants.hpp"]}
{"id": "C31", "title": "dot, length and distance laws", "statement": "dot is symmetric bit for bit; in exact arithmetic it is bilinear, positive definite and satisfies Cauchy-Schwarz; length is absolutely homogeneous and satisfies the triangle inequality; distance is a metric (zero iff equal, symmetric, triangle inequality).", "quantifier": "every pair or triple of vectors of every dimension", "why_tests_cant": "the operand space is infinite (over 2^64 bit patterns for two floats), so a test samples it while the claim is about every operand", "anchors": ["src/geometric.cpp dot", "src/geometric.cpp length", "src/geometric.cpp distance"]}
{"id": "C32", "title": "length2 and distance2 are squared lengths except in dimensions 3 and 4", "statement": "length2(v) = length(v)^2 in exact arithmetic; distance2 on float and vec2 is distance^2, but distance2 on vec3 and vec4 returns distance itself (they differ unless the distance is 0 or 1); length(float) returns its argument unchanged, also when negative.", "quantifier": "every vector", "why_tests_cant": "universally quantified over vectors; at distance 0 and 1 a test cannot see the difference", "anchors": ["src/geometric.cpp distance2", "src/geometric.cpp length2", "src/geometric.cpp length"]}
{"id": "C33", "title": "normalize yields a unit vector in the same direction", "statement": "In exact arithmetic normalize(v) has length 1 and is a positive multiple of v for every nonzero v of every dimension, is idempotent and invariant under positive scaling; the quaternion form likewise; in binary32 normalize(0) is NaN in every component.", "quantifier": "every nonzero vector and quaternion", "why_tests_cant": "the operand space is infinite (over 2^64 bit patterns for two floats), so a test samples it while the claim is about every operand", "anchors": ["src/geometric.cpp normalize"]}
{"id": "C34", "title": "cross product laws", "statement": "cross is bilinear, anticommutative, orthogonal to both arguments, satisfies Lagrange's identity, the Jacobi identity and the BAC-CAB rule in exact arithmetic; in binary32 cross(v,v) is exactly zero in every component for every v with finite products and cross(a,b) equals -cross(b,a) under ==.", "quantifier": "every pair or triple of vec3", "why_tests_cant": "the operand space is infinite (over 2^64 bit patterns for two floats), so a test samples it while the claim is about every operand", "anchors": ["src/geometric.cpp cross"]}
{"id": "C35", "title": "faceforward turns the normal against the incident vector", "statement": "faceforward(N,I,Nref) is N or -N, and dot(faceforward(N,I,N),I) is <= 0 or NaN in binary32 for every N and I.", "quantifier": "every triple of vectors of every dimension", "why_tests_cant": "the operand space is infinite (over 2^64 bit patterns for two floats), so a test samples it while the claim is about every operand", "anchors": ["src/geometric.cpp faceforward"]}
{"id": "C36", "title": "reflect is an involutive isometry", "statement": "For unit N in exact arithmetic, reflect(reflect(I,N),N) = I, |reflect(I,N)| = |I|, dot(reflect(I,N),N) = -dot(I,N), and reflect fixes every vector orthogonal to N.", "quantifier": "every I and every unit N, in every dimension", "why_tests_cant": "the operand space is infinite (over 2^64 bit patterns for two floats), so a test samples it while the claim is about every operand", "anchors": ["src/geometric.cpp reflect"]}
{"id": "C37", "title": "refract obeys Snell's law", "statement": "For unit I and N with dot(N,I) <= 0 in exact arithmetic, refract(I,N,eta) is zero exactly on total internal reflection, is otherwise a unit vector in the plane of I and N with sine of its angle eta times that of I on the far side of the surface, and eta = 1 returns I.", "quantifier": "every unit I, N and every eta", "why_tests_cant": "the operand space is infinite (over 2^64 bit patterns for two floats), so a test samples it while the claim is about every operand", "anchors": ["src/geometric.cpp refract"]}
{"id": "C38", "title": "orthogonal and orthogonal_branchless are perpendicular", "statement": "For every v, orthogonal(v) is perpendicular to v in exact arithmetic and nonzero if v is, and dot(v, orthogonal(v)) is exactly 0 in binary32 when the two products formed do not overflow; orthogonal_branchless(v) is perpendicular for every v and nonzero for every unit v, but zero for some longer vectors such as (1,0,2).", "quantifier": "every vec3", "why_tests_cant": "the operand space is infinite (over 2^64 bit patterns for two floats), so a test samples it while the claim is about every operand", "anchors": ["src/geometric.cpp orthogonal", "src/geometric.cpp orthogonal_branchless"]}
{"id": "C39", "title": "Octahedral encoding", "statement": "For every nonzero v encode_octahedral(v) lies in [-1,1]^2 and depends only on v's direction; decode_octahedral always returns a unit vector; decode_octahedral(encode_octahedral(v)) is v normalized on the closed upper hemisphere z >= 0, and never on the open lower hemisphere.", "quantifier": "every nonzero vec3", "why_tests_cant": "the operand space is infinite (over 2^64 bit patterns for two floats), so a test samples it while the claim is about every operand", "anchors": ["src/geometric.cpp encode_octahedral", "src/geometric.cpp decode_octahedral"]}
{"id": "C40", "title": "Matrix ring laws", "statement": "For mat2, mat3 and mat4 multiplication is the linear-algebra product of column-major matrices (entry (i,j) is the sum over k), associative, distributive over +, with the default-constructed identity as unit; (A*B)*v = A*(B*v) and v*A = transpose(A)*v in exact arithmetic. The last equation holds bit for bit in binary32 for mat2 and mat3 but not for mat4.", "quantifier": "every matrix triple, vector and scalar", "why_tests_cant": "the operand space is infinite (over 2^64 bit patterns for two floats), so a test samples it while the claim is about every operand", "anchors": ["src/mat2.cpp operator*", "src/mat3.cpp operator*", "src/mat4.cpp operator*"]}
{"id": "C41", "title": "transpose is an involutive anti-automorphism", "statement": "transpose(m)[i][j] is m[j][i] bit for bit, transpose(transpose(m)) is m bit for bit, and transpose(A*B) = transpose(B)*transpose(A) in exact arithmetic.", "quantifier": "every matrix", "why_tests_cant": "the operand space is infinite (over 2^64 bit patterns for two floats), so a test samples it while the claim is about every operand", "anchors": ["src/matrix.cpp transpose"]}
{"id": "C42", "title": "determinant", "statement": "determinant is the Leibniz sum over permutations, multiplicative, invariant under transpose, 1 on the identity, alternating and linear in columns, in exact arithmetic, for mat2, mat3, mat4.", "quantifier": "every matrix pair", "why_tests_cant": "the operand space is infinite (over 2^64 bit patterns for two floats), so a test samples it while the claim is about every operand", "anchors": ["src/matrix.cpp determinant"]}
{"id": "C43", "title": "inverse", "statement": "For every matrix with nonzero determinant, inverse(m)*m and m*inverse(m) are the identity in exact arithmetic, inverse is an involution and reverses products; when the determinant computed in binary32 (for mat4: by the expression inverse itself uses) is zero the inverse has no finite entry, i.e. the caller gets infinities or NaN rather than a wrong finite matrix.", "quantifier": "every invertible matrix of every dimension; every matrix with vanishing binary32 determinant", "why_tests_cant": "the operand space is infinite (over 2^64 bit patterns for two floats), so a test samples it while the claim is about every operand", "anchors": ["src/matrix.cpp inverse"]}
{"id": "C44", "title": "adjugate family", "statement": "adjugate(m)*m = determinant(m)*I for all m; adjugateTranspose and inverseTranspose return the transposes of adjugate and inverse for mat3 and mat4, whereas for mat2 both return the untransposed matrix and so differ from their name exactly when the off-diagonal entries differ.", "quantifier": "every matrix", "why_tests_cant": "the operand space is infinite (over 2^64 bit patterns for two floats), so a test samples it while the claim is about every operand", "anchors": ["src/matrix.cpp adjugate", "src/matrix.cpp adjugateTranspose", "src/matrix.cpp inverseTranspose"]}
{"id": "C45", "title": "Matrix division operators", "statement": "A/B is A*inverse(B), m/v is inverse(m)*v, v/m is v*inverse(m); whenever the divisor is invertible, (A/B)*B = A, m*(m/v) = v and (v/m)*m = v in exact arithmetic; scalar division is entrywise.", "quantifier": "every pair with invertible divisor", "why_tests_cant": "the operand space is infinite (over 2^64 bit patterns for two floats), so a test samples it while the claim is about every operand", "anchors": ["src/mat2.cpp operator/", "src/mat3.cpp operator/", "src/mat4.cpp operator/"]}
{"id": "C46", "title": "Matrix size conversions", "statement": "mat4(mat3) embeds in the upper-left corner with identity elsewhere and mat3(mat4), mat2(mat3) take the upper-left block, so narrowing after widening is the identity and widening preserves products; constructing mat3 from mat2 always indexes a third column of the mat2: it fails the assertion in a debug build and is undefined behaviour otherwise.", "quantifier": "every matrix and both build modes", "why_tests_cant": "a property of all matrices and of undefined behaviour", "anchors": ["src/mat3.cpp mat3(const mat2&)", "src/mat4.cpp mat4(const mat3&)", "src/mat4.cpp operator mat3", "src/mat3.cpp operator mat2"]}
{"id": "C47", "title": "matrixCompMult is the Hadamard product", "statement": "matrixCompMult(a,b)[i][j] is a[i][j]*b[i][j] with one rounding, is commutative bit for bit, and has the all-ones matrix as unit.", "quantifier": "every matrix pair", "why_tests_cant": "the operand space is infinite (over 2^64 bit patterns for two floats), so a test samples it while the claim is about every operand", "anchors": ["src/matrix.cpp matrixCompMult"]}
{"id": "C48", "title": "translate, scale and rotate right-multiply the elementary transform", "statement": "translate(m,v), scale(m,v) and rotate(m,a,v) equal m times the homogeneous translation, scaling and axis-angle rotation matrix in exact arithmetic; rotate's linear part is orthogonal with determinant 1 and fixes the axis; translations add, scalings multiply, rotations about one axis add angles.", "quantifier": "every matrix, nonzero axis, angle and vector", "why_tests_cant": "the operand space is infinite (over 2^64 bit patterns for two floats), so a test samples it while the claim is about every operand", "anchors": ["src/matrix_transform.cpp translate", "src/matrix_transform.cpp scale", "src/matrix_transform.cpp rotate"]}
{"id": "C49", "title": "lookAt builds a rigid view transform", "statement": "For eye != center and up not parallel to the view direction, lookAtRH and lookAtLH are rigid motions (orthonormal, determinant +1) mapping eye to the origin, center to the negative (RH) or positive (LH) z axis at its distance, and up into the half plane y > 0, x = 0.", "quantifier": "every admissible eye, center, up", "why_tests_cant": "the operand space is infinite (over 2^64 bit patterns for two floats), so a test samples it while the claim is about every operand", "anchors": ["src/matrix_transform.cpp lookAtRH", "src/matrix_transform.cpp lookAtLH"]}
{"id": "C50", "title": "Orthographic projections map the view box to the clip box", "statement": "Each ortho variant sends left/right, bottom/top and near/far planes to -1/+1 and to 0..1 (ZO) or -1..1 (NO), with the handedness' z sign, affinely and bijectively, in exact arithmetic.", "quantifier": "every nondegenerate box", "why_tests_cant": "the operand space is infinite (over 2^64 bit patterns for two floats), so a test samples it while the claim is about every operand", "anchors": ["src/matrix_transform.cpp ortho", "src/matrix_transform.cpp orthoLH_ZO", "src/matrix_transform.cpp orthoRH_ZO", "src/matrix_transform.cpp orthoLH_NO", "src/matrix_transform.cpp orthoRH_NO"]}
{"id": "C51", "title": "Perspective projections map the frustum to the clip volume", "statement": "Each perspective variant puts near and far planes at clip depth 0/1 (ZO) or -1/1 (NO), the frustum's top and right edges at ndc 1, with w equal to the distance along the view axis, and is strictly monotone in depth; in binary32 the debug assertion fires exactly for a NaN aspect and for aspect == FLT_EPSILON, so aspect == 0 is accepted and gives a matrix with a non-finite entry.", "quantifier": "every fov, aspect, near and far", "why_tests_cant": "the operand space is infinite (over 2^64 bit patterns for two floats), so a test samples it while the claim is about every operand", "anchors": ["src/matrix_transform.cpp perspectiveRH_ZO", "src/matrix_transform.cpp perspectiveRH_NO", "src/matrix_transform.cpp perspectiveLH_ZO", "src/matrix_transform.cpp perspectiveLH_NO"]}
{"id": "C52", "title": "decompose_orthogonal recovers translation, rotation and scale", "statement": "For a matrix translate*rotate*scale with nonzero scale, decompose_orthogonal returns the translation exactly and a scale and unit quaternion whose recomposition is the original matrix, in exact arithmetic (a reflection comes back as all scale factors negated).", "quantifier": "every rotation, every admissible scale and translation, in all branches of the rotation extraction", "why_tests_cant": "the operand space is infinite (over 2^64 bit patterns for two floats), so a test samples it while the claim is about every operand", "anchors": ["src/matrix_transform.cpp decompose_orthogonal"]}
{"id": "C53", "title": "Quaternion product is Hamilton's", "statement": "In exact arithmetic q1*q2 (the 9-multiplication scheme) and q1 *= q2 equal the Hamilton product; it is associative, has the default quaternion as unit, distributes over +, and the norm is multiplicative.", "quantifier": "every quaternion pair and triple", "why_tests_cant": "the operand space is infinite (over 2^64 bit patterns for two floats), so a test samples it while the claim is about every operand", "anchors": ["src/quat.cpp operator*", "src/quat.cpp operator*="]}
{"id": "C54", "title": "Quaternion action is a rotation", "statement": "For unit q, q*v is the vector part of q v q^-1, preserves dot and cross products, (p*q)*v = p*(q*v), and v*q is the inverse rotation: (q*v)*q = v; q and -q act equally.", "quantifier": "every unit quaternion and vector", "why_tests_cant": "the operand space is infinite (over 2^64 bit patterns for two floats), so a test samples it while the claim is about every operand", "anchors": ["src/quat.cpp operator*(quat,vec3)", "src/quat.cpp operator*(vec3,quat)"]}
{"id": "C55", "title": "conjugate and inverse", "statement": "conjugate is an involutive anti-automorphism; inverse(q)*q = q*inverse(q) = 1 for every nonzero q, inverse equals conjugate on unit quaternions and reverses products; conjugate is exact in binary32.", "quantifier": "every nonzero quaternion", "why_tests_cant": "the operand space is infinite (over 2^64 bit patterns for two floats), so a test samples it while the claim is about every operand", "anchors": ["src/quaternion.cpp conjugate", "src/quaternion.cpp inverse"]}
{"id": "C56", "title": "Quaternion and matrix conversions are mutually inverse", "statement": "mat3_cast of a unit quaternion is a rotation matrix acting like the quaternion and turning products into products; quat_cast(mat3_cast(q)) is q or -q for every unit q, and mat3_cast(quat_cast(m)) is m for every rotation matrix m, whichever of the four branches is taken.", "quantifier": "every unit quaternion and every rotation matrix", "why_tests_cant": "the operand space is infinite (over 2^64 bit patterns for two floats), so a test samples it while the claim is about every operand", "anchors": ["src/quaternion.cpp mat3_cast", "src/quaternion.cpp quat_cast", "src/quaternion.cpp mat4_cast"]}
{"id": "C57", "title": "Angle-axis conversion", "statement": "angleAxis(a,n) for unit n is a unit quaternion with angle() = a and axis() = n for a in (0,2*pi), rotating by a about n (Rodrigues' formula); rotate(q,a,v) is q times that rotation; axis() never divides by zero.", "quantifier": "every angle and unit axis", "why_tests_cant": "the operand space is infinite (over 2^64 bit patterns for two floats), so a test samples it while the claim is about every operand", "anchors": ["src/quaternion.cpp angleAxis", "src/quaternion.cpp axis", "src/quaternion.cpp angle", "src/quaternion.cpp rotate"]}
{"id": "C58", "title": "Euler angles round trip", "statement": "quat(vec3 euler) is a unit quaternion equal to the product of the three axis rotations (x, then y, then z); eulerAngles(quat(e)) = e for pitch, roll in (-pi,pi] and yaw in (-pi/2,pi/2); quat(eulerAngles(q)) is q or -q for every unit quaternion, gimbal lock included; in binary32 the argument of asin is NaN or in [-1,1].", "quantifier": "every Euler triple in range and every quaternion", "why_tests_cant": "the operand space is infinite (over 2^64 bit patterns for two floats), so a test samples it while the claim is about every operand", "anchors": ["src/quat.cpp quat(vec3)", "src/quaternion.cpp eulerAngles", "src/quaternion.cpp pitch", "src/quaternion.cpp yaw", "src/quaternion.cpp roll"]}
{"id": "C59", "title": "Interpolation of quaternions", "statement": "slerp of unit quaternions returns x at 0 and y up to sign at 1, stays on the unit sphere and moves at constant angular speed along the shorter arc, for cosTheta below the linear threshold; lerp fails its assertion exactly outside [0,1]; nlerp is normalized; all in exact arithmetic.", "quantifier": "every pair of unit quaternions and every t", "why_tests_cant": "the operand space is infinite (over 2^64 bit patterns for two floats), so a test samples it while the claim is about every operand", "anchors": ["src/quaternion.cpp slerp", "src/quaternion.cpp lerp", "src/quaternion.cpp nlerp"]}
{"id": "C60", "title": "Rotation between two vectors", "statement": "quat(u,v) for nonzero u,v is a unit quaternion turning the direction of u into the direction of v: exactly outside the cone u.v < -(1-1e-6)|u||v|, and with squared direction error at most 2e-6 inside it; inside it is a half turn, exact for exactly opposite vectors.", "quantifier": "every nonzero pair", "why_tests_cant": "the operand space is infinite (over 2^64 bit patterns for two floats), so a test samples it while the claim is about every operand", "anchors": ["src/quat.cpp quat(vec3,vec3)"]}
{"id": "C61", "title": "quatLookAt orients the z axis", "statement": "For a unit direction not parallel to up, quatLookAtLH/RH return a unit quaternion rotating (0,0,1) to direction (LH) or (0,0,-1) to direction (RH), with up mapped consistently.", "quantifier": "every unit direction and admissible up", "why_tests_cant": "the operand space is infinite (over 2^64 bit patterns for two floats), so a test samples it while the claim is about every operand", "anchors": ["src/quaternion.cpp quatLookAtLH", "src/quaternion.cpp quatLookAtRH"]}
{"id": "C62", "title": "Colour conversions keep alpha and range", "statement": "Every vec4 colour conversion returns the alpha component unchanged bit for bit and treats red, green, blue alike and independently; the vec3 conversions are the vec4 ones without alpha; linear-to-sRGB with an explicit gamma depends only on the input clamped to [0,1].", "quantifier": "every colour, every gamma, every implementation of powf", "why_tests_cant": "the operand space is infinite (over 2^64 bit patterns for two floats), so a test samples it while the claim is about every operand", "anchors": ["src/color_space.cpp"]}
{"id": "C63", "title": "Colour conversions with one gamma are not inverse", "statement": "In exact arithmetic SRGB-to-linear with gamma g followed by linear-to-sRGB with gamma 1/g returns the channel up to 1e-30 on the power branch and on the linear toe, and up to 1e-7 on all of [0,1] for the standard 2.4. Passing the same gamma g > 1 to both, as the shared parameter name suggests, gives a strictly darker channel; with the default 2.4 mid-grey comes back negative.", "quantifier": "every colour in range and every gamma", "why_tests_cant": "the operand space is infinite (over 2^64 bit patterns for two floats), so a test samples it while the claim is about every operand", "anchors": ["src/color_space.cpp convertLinearToSRGB", "src/color_space.cpp convertSRGBToLinear"]}
{"id": "C64", "title": "Forward error bound of inner products", "statement": "The binary32 dot and length2 of vectors of dimension n differ from the exact value by at most gamma_n = n*2^-24/(1 - n*2^-24) times the sum of absolute products plus n*2^-149, whenever the result is finite.", "quantifier": "every pair of finite vectors without overflow, every dimension", "why_tests_cant": "a bound for all inputs with the worst case unknown to any test", "anchors": ["src/geometric.cpp dot", "src/geometric.cpp length2"]}
{"id": "C65", "title": "Forward error bounds of polynomial functions", "statement": "cross, matrix-vector and matrix-matrix products, determinant, adjugate, quaternion product and rotation, mat3_cast, lerp, translate, scale and reflect computed in binary32 satisfy a componentwise error bound gamma_k times the result computed with absolute values, plus an underflow term, against the exact-arithmetic result; all follow from one theorem valid for every expression built from + - *. A quaternion with components in [-1,1] rotates a vector with components up to V with error at most 79*2^-24*V in each component.", "quantifier": "every finite input without overflow, every expression", "why_tests_cant": "a bound for all inputs and all expressions", "anchors": ["src/geometric.cpp cross", "src/geometric.cpp reflect", "src/mat2.cpp operator*", "src/mat3.cpp operator*", "src/mat4.cpp operator*", "src/matrix.cpp", "src/quat.cpp operator*", "src/quaternion.cpp mat3_cast", "src/matrix_transform.cpp translate"]}
{"id": "C66", "title": "Exactness results in binary32", "statement": "Multiplying by the identity matrix, by powers of two without underflow or overflow, negation and subtraction of values within a factor two (Sterbenz) incur no rounding error; multiplying by the identity quaternion does, because the product scheme rounds.", "quantifier": "every finite operand in the stated range", "why_tests_cant": "the operand space is infinite (over 2^64 bit patterns for two floats), so a test samples it while the claim is about every operand", "anchors": ["src/mat2.cpp operator*", "src/mat3.cpp operator*", "src/mat4.cpp operator*", "src/quat.cpp operator*", "src/geometric.cpp cross"]}
{"id": "C67", "title": "NaN propagates through algebraic operations", "statement": "If any component of an operand is NaN then dot, length, length2, distance, cross components that use it, matrix products' affected entries, determinant and compAdd/compMul are NaN in binary32, so errors are never masked; min/max/clamp/compMin/compMax/sign/step are the documented exceptions.", "quantifier": "every operand and every position of the NaN", "why_tests_cant": "the operand space is infinite (over 2^64 bit patterns for two floats), so a test samples it while the claim is about every operand", "anchors": ["src/geometric.cpp", "src/component_wise.cpp", "src/matrix.cpp determinant"]}
{"id": "C68", "title": "Integer common functions", "statement": "abs, min, max, clamp, sign (and signNotZero where declared) on int and ivec types and compAdd, compMul, compMin, compMax on ivec compute the exact integer result, with overflow the only source of undefined behaviour.", "quantifier": "every int and ivec", "why_tests_cant": "2^32 to 2^128 inputs", "anchors": ["src/common.cpp abs", "src/common.cpp min", "src/common.cpp clamp", "src/component_wise.cpp"]}
{"id": "C69", "title": "Component reductions", "statement": "compMin and compMax return an extremal component of any NaN-free vector (below or above every component and equal to one of them); compAdd and compMul are the left-to-right sum and product, with a forward error bound.", "quantifier": "every vector", "why_tests_cant": "the operand space is infinite (over 2^64 bit patterns for two floats), so a test samples it while the claim is about every operand", "anchors": ["src/component_wise.cpp"]}
{"id": "C70", "title": "Entrywise matrix and quaternion operators, in place or not", "statement": "For mat2, mat3, mat4 and quat every entrywise operator (matrix + matrix, - matrix, matrix with scalar on either side, unary + and -, scalar / matrix) applies one scalar operation to the corresponding entries; each compound matrix assignment m op= x leaves in m what m op x was before the call, also when x is m itself.", "quantifier": "every matrix, quaternion and scalar, every scalar type, every aliasing of the two sides", "why_tests_cant": "the operand space is infinite and self-assignment changes operands while they are read", "anchors": ["src/mat2.cpp", "src/mat3.cpp", "src/mat4.cpp", "src/quat.cpp"]}
{"id": "C71", "title": "Inputs below explicit bounds cannot overflow", "statement": "For every function built from + - * (inner, cross and matrix products, determinants, adjugates, quaternion products and rotations, translate, scale, reflect, mix, compAdd, compMul) there is an explicit c and d such that finite inputs bounded in magnitude by M >= 1 with c*M^d < 2^127 give finite results, no intermediate value overflowing; this follows from one theorem valid for every expression built from + - *.", "quantifier": "every finite input within the bound, every expression", "why_tests_cant": "no test can establish the absence of overflow over all inputs of a range", "anchors": ["src/geometric.cpp", "src/matrix.cpp determinant", "src/mat4.cpp operator*", "src/quat.cpp operator*", "src/transform.cpp translate"]}
{"id": "C72", "title": "Accuracy of length, distance and normalize in binary32", "statement": "For n-component vectors (and quaternions, n = 4) with finite components: length is within (n+3)/2 half-ulps of the exact length (plus 2^-73) when that is at most 2^62; distance is within (n+5)/2 half-ulps (plus 2^-73) of the exact distance when that is at most 2^61; for lengths in [2^-48, 2^62] normalize is within n/2+6 half-ulps of the exact unit vector in every component (plus 2^-149) and the exact length of its result is within n/2+7 half-ulps of 1. Outside that range normalize may return NaN or the zero vector for nonzero vectors.", "quantifier": "every finite vector in the stated range, every dimension", "why_tests_cant": "a bound for all inputs with the worst case unknown to any test", "anchors": ["src/geometric.cpp length", "src/geometric.cpp distance", "src/geometric.cpp normalize"]}
{"id": "C73", "title": "Colour conversions against the sRGB standard", "statement": "In exact arithmetic convertLinearToSRGB(c, 1/2.4) is the IEC 61966-2-1 encoding of the colour clamped to [0,1] and convertSRGBToLinear(c) its decoding up to 1e-28; the overload without exponent stays within 0.001 of the standard encoding on [0.0031308,1] and within 0.037 on [0,1], is strictly increasing from 0.000016 upwards and below 1, but is negative for every channel in (0, 0.00075].", "quantifier": "every colour in [0,1], every channel", "why_tests_cant": "uniform bounds over a continuum", "anchors": ["src/color_space.cpp convertLinearToSRGB", "src/color_space.cpp convertSRGBToLinear"]}
{"id": "C74", "title": "Projection matrices are accurate in binary32", "statement": "Every entry of the five orthographic matrices is within 3.1 half-ulps of the exact entry, relatively, and every entry of the four perspective matrices within k + 4.1 half-ulps when the C library's tangent of half the field of view is within k half-ulps (0 <= k <= 50), for finite parameters of moderate size (orthographic: at most 2^120; perspective: between 2^-50 and 2^50) with the exact entries between 2^-120 and 2^120 or 0. In particular no cancellation between near and far plane loses accuracy.", "quantifier": "every finite parameter in the stated range, every C library", "why_tests_cant": "a relative bound over all parameters, near-cancelling ones included", "anchors": ["src/matrix_transform.cpp ortho", "src/matrix_transform.cpp perspectiveRH_ZO"]}
{"id": "C75", "title": "Accuracy of matrix inverses in binary32", "statement": "adjugateTranspose of mat3 and mat4 satisfies an entrywise bound gamma_k relative to the cofactors computed with absolute values. inverse (mat2, mat3, mat4) and inverseTranspose (mat3, mat4) return, entry by entry, the exact cofactor divided by the exact determinant D up to the error (|A|*(r*u + d/|D|) + (1 + r*u)*e)/(|D| - d) plus 2^-149, where u = 2^-24, r is 1 or 2 roundings, d is an explicit bound on the error of the determinant and e on that of the cofactor A; it is assumed that |D| exceeds d and no overflow occurs. Hence for well-conditioned matrices every entry is accurate to a few units in the last place.", "quantifier": "every finite matrix whose determinant exceeds its own rounding error bound", "why_tests_cant": "the error near singular matrices depends on conditioning; no finite set of matrices bounds it", "anchors": ["src/matrix.cpp inverse", "src/matrix.cpp inverseTranspose", "src/matrix.cpp adjugateTranspose"]}
{"id": "C76", "title": "Accuracy of rotations in binary32", "statement": "If the C library's sine and cosine of the angle used are within k <= 100 half-ulps of 1, then every entry of rotate(m, angle, axis) is within 1.5k+53 half-ulps of the exact product of m with the rotation about the exactly normalized axis, relative to the sum of the absolute values of the entries of m combined in it; angleAxis(angle, axis) has a scalar part within k half-ulps and a vector part within k+1.001 half-ulps relative to the axis; rotate(q, angle, axis) is within k+81 half-ulps, relative to the sum of the absolute values of the components of q, of the exact quaternion product. Axis length in [2^-48, 2^62], no overflow.", "quantifier": "every matrix, quaternion, angle and axis in the stated range, every C library", "why_tests_cant": "a uniform bound over a continuum of axes and angles, for every C library", "anchors": ["src/matrix_transform.cpp rotate", "src/quaternion.cpp angleAxis", "src/quaternion.cpp rotate"]}
{"id": "C77", "title": "Errors in chains of any length", "statement": "Multiplying k+1 matrices of dimension 2, 3 or 4 one after the other in binary32 never overflows and gives, as an operator on vectors, the exact product up to ((1+eta u)^k - 1) c0...ck, where ci >= 1 bounds how much factor i stretches vectors, u is a half-ulp of 1, eta is 5, 10, 17, and (1+eta u)^k c0...ck <= 2^60. The same holds for a vector moved through k matrices (eta = 5, 7, 7) and for products of quaternions measured by length (eta = 290). Up to 10^4 quaternions whose lengths are within 9 half-ulps of 1 multiply to a quaternion whose length is within 410 half-ulps per factor of 1. A sum of k+1 vectors or quaternions whose result is finite is, per component, within ((1+u)^k - 1) times the sum of absolute values.", "quantifier": "every chain of every length within the stated magnitudes", "why_tests_cant": "an induction over chains of unbounded length, with rounding errors accumulating at every step", "anchors": ["src/mat2.cpp operator*", "src/mat3.cpp operator*", "src/mat4.cpp operator*", "src/quat.cpp operator*", "src/vec2.cpp operator+", "src/vec3.cpp operator+", "src/vec4.cpp operator+"]}
{"id": "C78", "title": "Sign symmetry in binary32", "statement": "Negating an argument negates, or leaves unchanged, every component of the computed result, with at most the sign of a zero differing, for all inputs including infinities and NaN: inner, cross and matrix products are odd in each argument, determinant and adjugate have sign (-1)^n and (-1)^(n-1), the quaternion product is odd in both factors, q and -q rotate every vector alike and give the same matrix, reflect is odd in the vector and even in the normal. Bit for bit: length and length2 ignore the sign, distance is symmetric, normalize is odd, and abs, floor/ceil, trunc, round, roundEven, min/max and clamp are mirrored correctly (clamp and sign for non-NaN arguments, sign up to the sign of zero). All product laws follow from one theorem about every expression whose sign is determined by its form.", "quantifier": "every input, infinities and NaN included, every expression", "why_tests_cant": "a symmetry over all pairs of inputs, and of rounding itself", "anchors": ["src/geometric.cpp", "src/matrix.cpp determinant", "src/quat.cpp operator*", "src/quaternion.cpp mat3_cast", "src/common.cpp"]}
{"id": "C79", "title": "Integers and fixed-point numbers are computed exactly", "statement": "If all inputs are finite multiples of 2^-s of magnitude at most M >= 1 and c*(2^s*M)^d <= 2^24, the binary32 result is finite and equals the exact result, with explicit c and d for inner, cross and matrix products, determinants, adjugates, quaternion products and rotations, mat3_cast, translate, scale, reflect, compAdd, compMul; this follows from one theorem about every expression built from + - *. On such inputs matrix products are associative, and inverse and inverseTranspose are exact whenever the determinant is plus or minus a power of two (integer matrices of determinant 1, for example).", "quantifier": "every fixed-point input within the bound, every expression", "why_tests_cant": "no finite set of tests shows that no intermediate step ever rounds", "anchors": ["src/geometric.cpp", "src/mat4.cpp operator*", "src/matrix.cpp determinant", "src/matrix.cpp inverse", "src/quat.cpp operator*", "src/matrix_transform.cpp translate"]}
{"id": "C80", "title": "Scaling the inputs by powers of two scales the results exactly", "statement": "In binary32, multiplying every component of an argument by 2^p multiplies the results of the dot, cross, matrix and quaternion products by exactly 2^p, of determinants of n x n matrices by 2^(np), of adjugates by 2^((n-1)p), of length and distance by 2^p, and leaves normalize unchanged, as long as nothing overflows or underflows; quaternion rotation, translate, scale, reflect and mix commute with such scaling of the vectors or matrices they act on. Every expression of uniform degree behaves this way.", "quantifier": "every input, every exponent, every homogeneous expression", "why_tests_cant": "holds only if every rounding in the computation commutes with the scaling", "anchors": ["src/geometric.cpp", "src/mat4.cpp operator*", "src/matrix.cpp determinant", "src/quat.cpp operator*", "src/geometric.cpp normalize", "src/matrix_transform.cpp translate"]}
{"id": "C81", "title": "Rounding never breaks monotonicity where exact arithmetic is monotone", "statement": "In binary32, with rounding, overflow and infinities: inner products, products of matrices and vectors and every expression of sums and products grow with nonnegative inputs; the length of a vector grows with the absolute values of its components; sqrt, floor, ceil, trunc, round, roundEven, radians, degrees, min, max, clamp, step and sign preserve order and inversesqrt reverses it; mix(x, y, t) moves from x towards y as t grows and never steps back. smoothstep does not have this property.", "quantifier": "every input, infinities included; every expression without minus signs", "why_tests_cant": "a violation may occur between any two adjacent floats", "anchors": ["src/geometric.cpp length", "src/common.cpp mix", "src/common.cpp smoothstep", "src/exponential.cpp inversesqrt", "src/mat4.cpp operator*"]}
{"id": "C82", "title": "Lengths dominate components and normalized components stay in [-1, 1]", "statement": "In binary32, whenever the squared length is a normal number: no component of a vector or quaternion exceeds the computed length, no rounded coordinate difference exceeds the computed distance, every component of a normalized vector lies in [-1, 1] (the domain of acos and asin), and the length of a vector along an axis is exactly the absolute value of its component. normalize of such a vector need not be the unit axis vector.", "quantifier": "every finite vector", "why_tests_cant": "one ulp above 1 in any of 2^96 vectors would make acos return NaN", "anchors": ["src/geometric.cpp length", "src/geometric.cpp normalize", "src/geometric.cpp distance", "src/angle_and_trigonometry.cpp acos"]}
{"id": "C83", "title": "Guarded computations never leave their domain", "statement": "In binary32 the guards in the code suffice: quat_cast of any finite 3x3 or 4x4 matrix, rotation or not, takes the square root of a number of at least 1 and yields a finite quaternion with a component of at least 1/2; axis(q) is finite for every finite q; refract never takes the square root of a negative number; slerp calls acos only on [0, 1 - 2^-23] and never divides by a small number, for all finite quaternions and all finite t; quat(u, v) is finite with components in [-1, 1] even for opposite vectors; angle(normalize(q)) calls acos only on [-1, 1]. The exception: angle(q * conjugate(q)) can leave the domain of acos although q was normalized.", "quantifier": "every finite input up to stated powers of two, normalized or not; every C library meeting stated bounds on sin and acos", "why_tests_cant": "a NaN needs one unlucky rounding at a branch boundary; no finite set of tests rules it out", "anchors": ["src/quaternion.cpp quat_cast", "src/quaternion.cpp slerp", "src/quaternion.cpp axis", "src/quaternion.cpp angle", "src/geometric.cpp refract", "src/quat.cpp quat(vec3, vec3)"]}
{"id": "C84", "title": "Encodings stay in their range in binary32", "statement": "In binary32, rounding included, encode_octahedral yields points of [-1, 1]^2 and decode_octahedral vectors with components in [-1, 1] (the vector it normalizes is never small, even for points outside the square), and convertLinearToSRGB(c, gamma) yields components in [-0.0551, 1] for every colour without NaN, infinities included, if pow maps [0, 1] to [0, 1].", "quantifier": "every finite vector with components up to 2^60, one at least 2^-60; every finite point up to 2^30; every colour that is not NaN", "why_tests_cant": "range overshoot by one ulp occurs on a sparse set of inputs", "anchors": ["src/geometric.cpp encode_octahedral", "src/geometric.cpp decode_octahedral", "src/color_space.cpp convertLinearToSRGB(vec3, float)"]}
{"id": "C85", "title": "Accuracy of converting a rotation matrix to a quaternion", "statement": "In binary32, quat_cast of a 3x3 or 4x4 matrix whose entries are within d <= 1/1000 of the rotation matrix of a unit quaternion is, component by component, within 3d + 16*2^-24 of that quaternion or of its negation, whichever of the four branches is taken. quat_cast(mat3_cast(q)) is within 7h + 56*2^-24 of q or -q if the squared length of q is within h <= 1/4000 of 1, hence within 192*2^-24 after normalize(q).", "quantifier": "every unit quaternion, every finite matrix near its rotation matrix", "why_tests_cant": "accuracy must hold on both sides of every branch boundary, where the divisor is smallest", "anchors": ["src/quaternion.cpp quat_cast", "src/quaternion.cpp mat3_cast", "src/geometric.cpp normalize"]}
{"id": "C86", "title": "The source text, executed statement by statement, does what the model says", "statement": "The 907 functions of the .cpp files other than hash.cpp, type_ptr.cpp and the accessor files are transcribed as syntax trees and given a semantics (objects as lists of fields, references, uninitialised storage, assertions, undefined operations). Each of them, run with the functions it calls, returns the same value as its model function, leaves the same values in its reference parameters, and aborts or is undefined for the same arguments, for every arithmetic and both builds. Calls never recurse. A call that returns gives a value of the declared type with no uninitialised component. Only functions taking an index, a pointer or an integer, and seven with an assertion of their own, can abort or be undefined. x op= x with the argument referring to x itself does what it does with a copy, and decompose_orthogonal with one object for scale and translation leaves the scale there.", "quantifier": "every function, every well-typed argument list, every scalar type, both builds", "why_tests_cant": "agreement of two programs on all inputs, absence of uninitialised reads and of out-of-range subscripts on all paths", "anchors": ["src/vec2.cpp", "src/vec3.cpp", "src/vec4.cpp", "src/ivec2.cpp", "src/mat4.cpp", "src/quat.cpp", "src/matrix.cpp", "src/matrix_transform.cpp", "src/quaternion.cpp", "src/common.cpp", "src/geometric.cpp"]}
{"id": "C87", "title": "Programs on top of the library that pass a simple check never abort and are never undefined", "statement": "Take any function written in the C++ subset of C86 on top of the library: declarations, assignments to variables, members and literal subscripts, compound assignment, loops, branches, library calls. Run with the library's source text it does the same as run with the model. If it passes a syntactic check (types agree; every variable has an initial value; it calls only functions that have no assertion, take no pointer and do no int arithmetic; subscripts are literals in range; every path returns) it never aborts, is never undefined and returns a value of its declared type with no uninitialised component, in both builds, for all arguments of the declared types and every arithmetic.", "quantifier": "every client program of every size, all well-typed arguments, every scalar type, both builds", "why_tests_cant": "quantifies over all programs that use the library, not over calls of one function", "anchors": ["src/vec3.cpp", "src/mat4.cpp", "src/quat.cpp", "src/matrix.cpp", "src/geometric.cpp", "include/zcm/vec3.hpp"]}
{"id": "C88", "title": "Accuracy of spherical interpolation", "statement": "In binary32, if x and y are within d <= 1/1000 of unit quaternions X and Y, component by component, t is in [0, 1], |X.Y| >= 5d + 5*2^-24 and the C library's sinf and acosf are within k <= 16 half-ulps, then slerp(x, y, t) is within 7d + (10k + 18)*2^-24 of the exact interpolation of X and Y, on both sides of the switch to linear interpolation and up to the right angle, and its length is within 14d + (20k + 37)*2^-24 of 1. slerp(normalize(p), normalize(q), t) is within (10k + 75)*2^-24 of the exact interpolation of p/|p| and q/|q|.", "quantifier": "every pair of unit quaternions, every nearby binary32 pair, every t in [0, 1], every accurate C library", "why_tests_cant": "the error is the worst where sin of the angle is the smallest and at the branch boundary; sampling does not bound it", "anchors": ["src/quaternion.cpp slerp", "src/geometric.cpp dot", "src/common.cpp mix", "src/geometric.cpp normalize"]}
{"id": "C89", "title": "Accuracy of view transforms", "statement": "In binary32, for 2^-47 <= |center - eye| <= 2^61, 2^-30 <= |up| <= 2^60, |eye| <= 2^61 and a sine of the angle between the viewing direction and up of at least s >= 1/1000, every entry of the linear part of lookAtRH and lookAtLH is within (25/s + 20)*2^-24 of the exact view matrix, the translation is within (25/s + 24)*2^-24*|eye| plus three subnormal half-ulps, and the last row is exactly (0, 0, 0, 1). The computed matrix preserves distances between points up to the factor 1 +- 3.01 (25/s + 20)*2^-24. quatLookAtLH and quatLookAtRH of a direction within d <= s/9000 of a unit vector are within (11d + 18*2^-24)/s + 6d + 49*2^-24 of the exact quaternion, up to sign.", "quantifier": "every eye, centre and up vector in the stated ranges, both handednesses, every C library", "why_tests_cant": "the error grows as the direction approaches the up vector and cancellation in center - eye depends on the distance to the origin; sampling does not bound it", "anchors": ["src/matrix_transform.cpp lookAtRH, lookAtLH", "src/quaternion.cpp quatLookAtLH, quatLookAtRH", "src/geometric.cpp cross, normalize, dot"]}
{"id": "C90", "title": "Accuracy of the octahedral encoding", "statement": "In binary32, for vectors with components up to 2^60, one of them at least 2^-60, encode_octahedral is within 5.1*2^-24 of the exact point of the square, on both hemispheres (on the lower one provided x and y are zero or at least 2^-60). On the closed diamond |x| + |y| <= 1, decode_octahedral is within 15*2^-24 of the exact direction. Decoding an encoded direction of the upper hemisphere gives it back within 35*2^-24 in each component when z >= 5*2^-24 (|x| + |y| + |z|). Closer to the equator the round trip can return a direction in the opposite quadrant.", "quantifier": "every direction, every point of the diamond, every C library", "why_tests_cant": "the failure at the equator needs a vector within a few rounding errors of it", "anchors": ["src/geometric.cpp encode_octahedral, decode_octahedral", "src/geometric.cpp normalize", "src/common.cpp abs, signNotZero"]}
{"id": "C91", "title": "Accuracy of the rotation between two vectors", "statement": "In binary32, for u and v of length between 2^-18 and 2^30 with cosine of half their angle at least h >= 1/1000, quat(u, v) is within (11/h + 9)*2^-24 in each component of the exact quaternion of the shortest rotation, and rotating u/|u| by it (exactly) gives v/|v| up to 8.01 times that error. When |u||v| + u.v <= 4e-7 |u||v| it is a half turn about an axis across u: the result is off by at most 73*2^-24 plus the distance between -u/|u| and v/|v|. At any angle whatsoever, on either side of the branch, the rotated direction is within 1/80 of v/|v|.", "quantifier": "every pair of finite vectors in the stated range, every angle, every C library", "why_tests_cant": "the error is the largest next to the branch boundary near opposite vectors, where the branch taken depends on rounding", "anchors": ["src/quat.cpp quat(vec3, vec3)", "src/geometric.cpp dot, cross, normalize"]}
{"id": "C92", "title": "Euler angles in binary32", "statement": "With a C library whose sinf, cosf, asinf and atan2f are within k <= 16 half-ulps of 1 absolutely, and angles in [-4, 4], quat(vec3) is within (4.3k + 4)*2^-24 in each component of the rotation about x, then y, then z. For every quaternion within d of a rotation whose middle angle has a cosine of at least s, quat(eulerAngles(q)) is that rotation again up to sign within (23d + 24*2^-24)/s + (6k + 5)*2^-24, and eulerAngles returns the three angles modulo full turns, as points of the unit circle, within k*2^-24 + (12d + 12*2^-24)/s. So eulerAngles(quat(angles)) returns the angles modulo full turns within (k + (52k + 60)/s)*2^-24. Near gimbal lock the round trip is lost: the singularity test of pitch compares with exact zeros, so there is a quaternion of squared length within 1e-7 of 1 for which quat(eulerAngles(q)) differs from q and from -q by more than 1/2 in a component, whatever the accurate C library.", "quantifier": "every quaternion near a rotation, every triple of angles, every C library of the stated accuracy", "why_tests_cant": "rounding noise decides near gimbal lock, on inputs a sampling test does not hit; the error bound depends on the distance to it", "anchors": ["src/quaternion.cpp eulerAngles, pitch, yaw, roll", "src/quat.cpp quat(vec3)"]}
{"id": "C93", "title": "Reflection and refraction in binary32", "statement": "In binary32, for incident and normal vectors within d <= 1/1000 of unit vectors in each component, reflect is within 12d + 16*2^-24 in each component of the mirror image. refract with eta in [0, 4] is within ((9 eta^2 + 7 eta + 2) d + (14 eta^2 + 11 eta + 8)*2^-24)/s of the direction given by Snell's law, where s is at most the cosine of the angle of refraction and at least twice the square root of 9 eta^2 d + (14 eta^2 + 2)*2^-24; and when the radicand of that cosine is below minus this margin (total reflection) the result is exactly the zero vector. faceforward keeps or turns the normal correctly whenever the cosine of the angle between incident and reference vector exceeds 5d + 5*2^-24 in size. All for vec2, vec3 and vec4.", "quantifier": "every pair of nearly normalized finite vectors of each dimension, every eta in [0, 4]", "why_tests_cant": "the error of refract grows without bound towards the critical angle, and which side of it is taken there depends on rounding", "anchors": ["src/geometric.cpp reflect, refract, faceforward, dot"]}
{"id": "C94", "title": "Colour conversions in binary32", "statement": "With a C library whose powf is within k <= 16 half-ulps, relatively, for bases in [1/1024, 2] and exponents in [1/4, 4], convertSRGBToLinear of a channel in [0, 1] is within k + 11 half-ulps, relatively, of the IEC 61966-2-1 decoding (plus 2^-149), and convertLinearToSRGB with an exponent within 2^-24 of 1/2.4, such as 1.0f/2.4f, is within (1.1k + 5)*2^-24 of the standard encoding of the clamped channel; the float thresholds select the branch of the standard for every float. From sRGB to linear and back a channel returns within (1.6k + 10)*2^-24. Hence images with at most 65536 levels per channel survive the round trip exactly: dividing the levels by the largest one, decoding, encoding, multiplying and rounding gives every level back. The overload without exponent is within 12*2^-24 of its value in exact arithmetic on [0, 1] and within 0.00101 of the standard on [0.0031308, 1].", "quantifier": "every channel value in [0, 1] (encoding: every finite channel), every number of levels up to 65536, every C library with an accurate powf", "why_tests_cant": "the errors are amplified where the curve is steep and branches meet at thresholds that are not floats; the guarantee is for every accurate powf", "anchors": ["src/color_space.cpp convertSRGBToLinear", "src/color_space.cpp convertLinearToSRGB", "src/common.cpp clamp, round"]}
{"id": "C95", "title": "Ramps, interpolation and remainders in binary32", "statement": "In binary32, smoothstep(e0, e1, x) is within 7*2^-24 of the cubic ramp 3t^2 - 2t^3, t = (x - e0)/(e1 - e0) clamped to [0, 1], for all finite e0 < e1 whose difference does not overflow, however close or far apart, and every finite x; so one float may rank above a larger one (C81), but by at most 14*2^-24. mix(x, y, t) with t in [0, 1] and endpoints up to 2^126 does not overflow and is within 5.1*2^-24 max(|x|, |y|) + 2^-148 of the exact interpolation. fract(x) is the exact fractional part rounded once, with relative error at most 2^-24, for every finite x. mod(x, y) with y nonzero, |x/y| <= 2^23 and both up to 2^126 is within e = 2.1*2^-24 (|x| + |y|) + 2^-148 of the floored remainder m or, when m is within e of y, of m - y: the result can wrap around to 0 just below a multiple, as mod(0.7f, 0.1f) = 0 does.", "quantifier": "all finite floats in the stated ranges", "why_tests_cant": "errors depend on cancellation in x - e0 and y - x and on quotients that round across an integer, which a sample misses", "anchors": ["src/common.cpp smoothstep", "src/common.cpp mix", "src/common.cpp fract", "src/common.cpp mod"]}
{"id": "C96", "title": "Decomposition of transforms in binary32", "statement": "Let the upper three columns of a mat4 be g*s_i times the columns of a rotation matrix R, each with a relative error of at most e <= 1/4000, with g = 1 or -1 and s_i in [2^-40, 2^60]. In binary32 decompose_orthogonal returns scale factors within a relative error of 2e + 4*2^-24 of g*s_i and a quaternion within 10e + 30*2^-24 of that of R, up to sign; mirrored transforms are recognised in every case. For every matrix the translation is the last column bit for bit; when the other columns are finite and not longer than 2^62 the scale factors are a common sign times their lengths, within 3*2^-24 relatively plus 2^-73. A column of zeros is decomposed with the right scale but an orientation of NaNs: diag(0,1,1) is a witness.", "quantifier": "every such matrix, rotation, scale and error e <= 1/4000", "why_tests_cant": "the sign of the triple product, the branch of the quaternion extraction and three divisions interact; the bound must hold next to every branch change", "anchors": ["src/matrix_transform.cpp decompose_orthogonal"]}
{"id": "C97", "title": "Angle and axis of a rotation in binary32", "statement": "With a C library whose sinf, cosf and acosf are within k <= 16 times 2^-24, angleAxis(angle(q), axis(q)) returns every finite q with |q|^2 <= 1 + s^2/10 and 1 - w^2 >= s^2 >= 100*2^-24 within (5/2 k + 6 + 2/s)*2^-24. For q within d of a unit quaternion Q with 1 - W^2 >= s^2, s^2 >= max(200*2^-24, 100 d), the axis is within (3 d + 6*2^-24)/s^2 of that of Q and the angle within 21/10 d/s + 2k*2^-24 of 2 arccos W. Where the bound fails the loss is total: if cosf rounds correctly, a rotation of at most 2^-12 radians about any axis comes back as the angle 2 acosf(1) about (0,0,1); whenever |w| >= 1 the axis is (0,0,1).", "quantifier": "every quaternion in the stated ranges, every angle up to 2^-12, every axis, every accurate C library", "why_tests_cant": "the error grows without bound as the rotation gets small, and the guarantee is for every accurate C library", "anchors": ["src/quaternion.cpp angle", "src/quaternion.cpp axis", "src/quaternion.cpp angleAxis"]}
{"id": "C98", "title": "Repeatedly updated orientations stay normalized and drift linearly", "statement": "Let an orientation be updated any number n of times by q = normalize(q*d), or each time by q = normalize(d*q), where the start is within e0 <= 1/250 and every d within e <= 1/250 of a unit quaternion (Euclidean distance). In binary32 the result is finite, its length is within 9*2^-24 of 1 whatever n, and it is within 1.02(e0 + n e) + (59 n + 9)*2^-24 of the exact composition of the turns. A finite vector v with |v| <= 2^40 turned by it keeps its length within 76*2^-24 |v| + 2^-102 whatever n, and lies within (2.04(e0 + n e) + (118 n + 76)*2^-24)|v| + 2^-102 of the exactly turned vector. One product of quaternions with |q|^2 <= 1.02 has every component within 25*2^-24.", "quantifier": "every number of updates, every start, all turns, all vectors up to 2^40, every C library", "why_tests_cant": "the claim is about arbitrarily long runs; errors of early updates must not be amplified by later ones", "anchors": ["src/quat.cpp operator*(quat, quat)", "src/geometric.cpp normalize", "src/quat.cpp operator*(quat, vec3)"]}
{"id": "C99", "title": "Depth and screen position of projected points in binary32", "statement": "Let m be any of the four perspective matrices with planes 0 < n, 2n <= f between 2^-50 and 2^50, p a finite point at distance d in [n, f] in front of the camera, and c = m*vec4(p,1). In binary32 c/c.w has fourth component exactly 1, and its depth is within 16 w 2^-24 f/(f-n) of the ideal depth f(d-n)/((f-n)d), w = 1 (or ((f+n)d - 2fn)/((f-n)d), w = 2, for the [-1,1] variants), for every field of view and aspect. Hence of two such points the nearer one gets a strictly smaller depth whenever n(1/d - 1/d') > 32*2^-24; without a margin the order is lost: with planes 1 and 100 there are two points 2^-19 apart near distance 31.77 whose depths come out in the wrong order. With a tangent accurate to k <= 40 times 2^-24, the x and y components are within (k + 5)*2^-24, relatively, of x/(aspect tan(fovy/2) d) and y/(tan(fovy/2) d) as long as these and their numerators are in [2^-120, 2^120] or 0.", "quantifier": "every depth range, every pair of points between the planes, every C library", "why_tests_cant": "the depth row cancels near the near plane and saturates near the far plane; no sample shows for which gaps the depth test is safe", "anchors": ["src/matrix_transform.cpp perspectiveRH_ZO", "src/matrix_transform.cpp perspectiveRH_NO", "src/matrix_transform.cpp perspectiveLH_ZO", "src/matrix_transform.cpp perspectiveLH_NO", "src/mat4.cpp operator*(mat4, vec4)", "src/vec4.cpp operator/"]}
{"id": "C100", "title": "Inverse quaternions and undoing a rotation in binary32", "statement": "For every finite quaternion q with length in [2^-48, 2^62], inverse(q) is finite and every component is within 5.1*2^-24, relatively (plus a term below the smallest normal number), of that of conj(q)/|q|^2. If ||q| - 1| <= 1/250, each component of q*inverse(q) and of inverse(q)*q is within 31*2^-24 of (0,0,0,1). If ||q| - 1| <= 9*2^-24, which every normalized quaternion meets, then for every finite v with |v| <= 2^39 the vector conjugate(q)*(q*v), and q*(conjugate(q)*v), is finite and within 153*2^-24 |v| + 2^-100 of v; with inverse(q) in place of conjugate(q) within 185*2^-24 |v| + 2^-100.", "quantifier": "every quaternion in the stated ranges, every vector up to 2^39, every C library", "why_tests_cant": "the composition of two rounded rotations has to be bounded for every axis, angle and vector, not sampled", "anchors": ["src/quaternion.cpp inverse", "src/quaternion.cpp conjugate", "src/quat.cpp operator*(quat, quat)", "src/quat.cpp operator*(quat, vec3)"]}
{"id": "C101", "title": "The text of hash.cpp and type_ptr.cpp, executed, does what the model says", "statement": "Every overload of zcm::hash, executed statement by statement from its source text with 64-bit wrap-around arithmetic, memcpy of the float's image, the usual arithmetic conversions and overload resolution by argument type, returns exactly the model's hash and never meets an undefined operation; each std::hash specialisation returns what zcm::hash returns; both value_ptr overloads of every type return the address of the first scalar of the object, from which all scalars follow in component and column-major order.", "quantifier": "every argument of every overload, every bound on nested calls from four on", "why_tests_cant": "the properties of hashes and pointers are stated about the model; only a proof over the text ties them to the code for all inputs", "anchors": ["src/hash.cpp", "include/zcm/hash.hpp", "src/type_ptr.cpp"]}
{"id": "C102", "title": "Points of the world seen through a camera in binary32", "statement": "Let view = lookAtRH(eye, center, up) (or lookAtLH) for finite eye, center, up with center - eye of length in [2^-47, 2^61], up of length in [2^-30, 2^60], |eye| <= 2^61 and the sine of the angle between sight and up at least s >= 1/1000. In binary32, for every finite p with |p| <= 2^61, view*vec4(p,1) has each of x, y, z within dl = (44/s + 38)*2^-24 (|p| + |eye|) + 8*2^-149 of the exact coordinates of p in the camera's frame, and fourth component exactly 1. If D, the exact distance of p ahead of the eye along the line of sight, is in [n + dl, f - dl], then with any of the perspective matrices of the same handedness and planes 0 < n, 2n <= f in [2^-50, 2^50], the final device depth is within w (16*2^-24 + dl/D) f/(f-n) of the ideal depth at D (w = 1 for [0,1], 2 for [-1,1] depths). Of two such points the one ahead by D gets a strictly smaller depth than that ahead by D' as soon as n (1/(D + dl) - 1/(D' - dl')) > 32*2^-24.", "quantifier": "every non-degenerate camera, every pair of world points between the planes, every depth range, every C library", "why_tests_cant": "the error of the view transform is amplified by the projection; no sample shows which pairs of world points are safe for every camera", "anchors": ["src/matrix_transform.cpp lookAtRH", "src/matrix_transform.cpp lookAtLH", "src/matrix_transform.cpp perspectiveRH_ZO", "src/matrix_transform.cpp perspectiveRH_NO", "src/matrix_transform.cpp perspectiveLH_ZO", "src/matrix_transform.cpp perspectiveLH_NO", "src/mat4.cpp operator*(mat4, vec4)", "src/vec4.cpp operator/"]}
{"id": "C103", "title": "The text of the component accessors and swizzles, executed, does what the model says", "statement": "Every operator of the accessor templates (assignment, the compound assignments, ++ and -- in both forms, conversion), executed from its source text with template instantiation, member lookup in base classes, hiding of names and overload resolution, does on the vector's array exactly what the model does, for float and for int vectors with 2, 3 and 4 components, every index, value and vector; the prefix operators return a reference to the component. Every name declared in the unions of the vector headers denotes the accessor of the model's tables, and no other name is declared; reading a swizzle gives an object of the class it names with the listed elements; format_as gives the value. Assigning a component or swizzle from the same component or swizzle of another vector copies the whole vector. For the integer vectors v.x = n does not compile: the implicit copy assignment hides operator=(T) of the base class.", "quantifier": "every scalar, index, vector, argument and member name; index packs of every length", "why_tests_cant": "there are 770 accessor declarations and a dozen operators on each; only a proof over the templates covers them all, and a rejected program cannot be a unit test", "anchors": ["include/zcm/detail/vec2_access.hpp", "include/zcm/detail/vec3_access.hpp", "include/zcm/detail/vec4_access.hpp", "include/zcm/vec2.hpp", "include/zcm/vec3.hpp", "include/zcm/vec4.hpp", "include/zcm/ivec2.hpp", "include/zcm/ivec3.hpp", "include/zcm/ivec4.hpp"]}
{"id": "C104", "title": "Linear interpolation of orientations and following a target in binary32", "statement": "In binary32, for x and y within e <= 1/250 of unit quaternions X and Y (Euclidean distance) and t in [0, 1]: lerp(x, y, t) returns in debug builds too and is within e + 3.1*2^-24 of (1-t)X + tY. If s = |(1-t)X + tY| >= 4(e + 3.1*2^-24), nlerp(x, y, t) is finite, has length within 9*2^-24 of 1 and is within 2(e + 3.1*2^-24)/s + 9*2^-24 of the direction of (1-t)X + tY; for X.Y >= 0 within 3e + 18*2^-24. The smoothing loop q := nlerp(q, target, t), run any number n of times for t in [2^-17, 1] from a normalized q whose direction is at most 7/5 from that of the normalized target: every step returns, q stays normalized within 9*2^-24, and the distance from the target is at most (1 - t/2)^n times that of the start plus 108*2^-24/t. nlerp does not take the shorter way round: nlerp(q, -q, 0.5) is NaN in every component although q and -q are the same rotation.", "quantifier": "every pair of orientations, every t, every number of steps, every C library", "why_tests_cant": "rounding errors accumulate over an unbounded number of frames; that the loop settles near the target for every start is an induction, not a sample", "anchors": ["src/quaternion.cpp lerp", "src/quaternion.cpp nlerp", "src/quaternion.cpp normalize", "src/quat.cpp operator*(quat, float)", "src/quat.cpp operator+(quat, quat)"]}
{"id": "C105", "title": "Values smoothed, damped or accumulated in a loop in binary32", "statement": "Smoothing x := mix(x, y, t) of floats and of 2, 3 and 4 component vectors, run any number n of times with components up to 2^120 and t in [2^-20, 1]: nothing overflows, and in each component the distance from y is at most (1 - t + 4*2^-24)^n times that of the start plus 2 (2^-24 |y| + 2*2^-149)/t. Damping v := v*k with |k| <= 1, any number n of times, for every finite vector: no component ever grows, and each is k^n times the start up to a relative error of (1 + 2^-24)^n - 1 and an absolute one of n (1 + 2^-24)^n 2^-149. The loops do not in general reach the limit of exact arithmetic: smoothing with t = 1/8 towards 1 stays for ever at the predecessor of 1, damping by 0.9 never takes 2^-149 to zero, and adding 1 to 2^24 leaves it unchanged for ever.", "quantifier": "every start, target, factor and number of steps", "why_tests_cant": "the number of frames is unbounded; a test can only run finitely many and cannot show that a loop settles or stays at rest for ever", "anchors": ["src/common.cpp mix(float, float, float)", "src/common.cpp mix(vec2, vec2, float)", "src/common.cpp mix(vec3, vec3, float)", "src/common.cpp mix(vec4, vec4, float)", "src/vec2.cpp operator*", "src/vec3.cpp operator*", "src/vec4.cpp operator*", "src/vec3.cpp operator+"]}
{"id": "C106", "title": "Placing vertices by a rotation and a translation in binary32", "statement": "In binary32, for a normalized quaternion q (length within 9*2^-24 of 1) and finite p, v of length at most 2^61: translate(mat4(1), p) * mat4_cast(q) * vec4(v, 1) has every coordinate finite and within 93*2^-24 (|v| + |p|) + 8*2^-149 of the point v turned by the rotation of q's direction and moved by p, and last component exactly 1. mat4_cast(q) * vec4(v, 1) is within 93*2^-24 |v| + 8*2^-149 of the turned point, and agrees with q * v up to 169*2^-24 |v| + 2^-101 for |v| <= 2^40. Distances are kept: the distance of two placed points is that of the points up to twice the coordinate error of each.", "quantifier": "every normalized quaternion, position and pair of points, every C library", "why_tests_cant": "the rounding errors of the cast, of the matrix product and of the transform accumulate; no sample of poses and vertices bounds them for all", "anchors": ["src/quaternion.cpp mat4_cast", "src/quaternion.cpp mat3_cast", "src/matrix_transform.cpp translate", "src/mat4.cpp operator*(mat4, mat4)", "src/mat4.cpp operator*(mat4, vec4)", "src/quat.cpp operator*(quat, vec3)"]}
{"id": "C107", "title": "Points carried up a scene hierarchy of any depth in binary32", "statement": "Carry a point v up a chain of n nodes, each level computing translate(mat4(1), p) * mat4_cast(q) * vec4(v, 1) in binary32 with a normalized q (length within 9*2^-24 of 1). Let S be |v| plus the lengths of all the translations. As long as g^n (S + 16 n 2^-149) <= 2^61 with g = 1 + 186*2^-24, nothing overflows and the result is within (g^n - 1) S + 16 n g^n 2^-149 of the exactly carried point (Euclidean distance). For up to 45000 levels and S <= 2^59 the error is at most n (372*2^-24 S + 32*2^-149). Bodies stay rigid: two points carried through the same chain are as far apart as before up to the sum of their errors.", "quantifier": "every depth of the hierarchy, all nodes and points, every C library", "why_tests_cant": "the depth is unbounded and the error of each level is turned and amplified by the next; only an induction bounds it for every chain", "anchors": ["src/quaternion.cpp mat4_cast", "src/matrix_transform.cpp translate", "src/mat4.cpp operator*(mat4, mat4)", "src/mat4.cpp operator*(mat4, vec4)"]}
{"id": "C108", "title": "From model coordinates to the depth buffer in binary32", "statement": "Whole pipeline in binary32: a point v of a model is carried up a chain of any number of nodes (C107), seen by a camera (lookAtRH or lookAtLH, eye and centre apart, sine of the angle between sight and up at least s >= 1/1000) and projected by the perspective matrix of the same handedness (C102). Let D be its exact distance in front of the eye, S the length of v plus that of all the translations, c the error bound of C107, and t = c + (44/s + 38)*2^-24 (S + c + |eye|) + 8*2^-149. If n + t <= D <= f - t, the point's device depth is finite and within w (16*2^-24 + t/(D - t)) f/(f - n) of the ideal depth at D, w = 1 for depths in [0, 1] and 2 for [-1, 1]. Points of two models with chains of their own are drawn in the right order, depth of the nearer < depth of the farther, whenever n (1/(D + t) - 1/(D' - t')) > 32*2^-24.", "quantifier": "every hierarchy depth, all nodes, points, cameras and depth ranges, every C library", "why_tests_cant": "z-fighting between objects depends on the rounding of every stage; no sample of scenes shows which separations are safe for all", "anchors": ["src/quaternion.cpp mat4_cast", "src/matrix_transform.cpp translate", "src/mat4.cpp operator*(mat4, mat4)", "src/mat4.cpp operator*(mat4, vec4)", "src/matrix_transform.cpp lookAtRH", "src/matrix_transform.cpp lookAtLH", "src/matrix_transform.cpp perspectiveRH_ZO", "src/matrix_transform.cpp perspectiveRH_NO", "src/matrix_transform.cpp perspectiveLH_ZO", "src/matrix_transform.cpp perspectiveLH_NO"]}
{"id": "C109", "title": "Diffuse lighting in binary32", "statement": "clamp(dot(normalize(n), normalize(l)), 0, 1) in binary32, for a normal n and a light direction l of length between 2^-48 and 2^62: the result is finite, lies in [0, 1] and is within 19*2^-24 of the cosine of the angle between n and l, or of 0 where the cosine is negative; if the cosine is below -19*2^-24 the result is exactly 0, and if it is above 19*2^-24 the result is positive. The result does not depend on the frame: for lengths between 2^-40 and 2^40, turning n and l by the same normalized quaternion changes it by at most 342*2^-24.", "quantifier": "every normal, light direction and normalized quaternion, every C library", "why_tests_cant": "rounding in normalize and dot can flip the sign at grazing angles; that it never lights a face turned away by more than 19 half-ulps is a statement about all pairs of vectors", "anchors": ["src/geometric.cpp normalize(vec3)", "src/geometric.cpp dot(vec3, vec3)", "src/common.cpp clamp(float, float, float)", "src/quat.cpp operator*(quat, vec3)"]}
