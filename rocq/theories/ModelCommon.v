(** * src/common.cpp *)
From Coq Require Import ZArith Bool List.
From Verif Require Import Scalar Outcome Types Int32 ModelVec.
Local Open Scope outcome_scope.
Local Open Scope scalar_scope.

Section Common.
Variable S : Scalar.

(** common.cpp 19-22 *)
Definition abs_f (x : S) : S := sabs x.
(** common.cpp 24-27: abs(vec2) *)
Definition abs2 (x : vec2 S) : vec2 S := V2 (abs_f (x2 x)) (abs_f (y2 x)).
(** common.cpp 29-32: abs(vec3) *)
Definition abs3 (x : vec3 S) : vec3 S := V3 (abs_f (x3 x)) (abs_f (y3 x)) (abs_f (z3 x)).
(** common.cpp 34-37: abs(vec4) *)
Definition abs4 (x : vec4 S) : vec4 S := V4 (abs_f (x4 x)) (abs_f (y4 x)) (abs_f (z4 x)) (abs_f (w4 x)).
(** common.cpp 63-66 *)
Definition ceil_f (x : S) : S := sceil x.
(** common.cpp 68-71: ceil(vec2) *)
Definition ceil2 (x : vec2 S) : vec2 S := V2 (ceil_f (x2 x)) (ceil_f (y2 x)).
(** common.cpp 73-76: ceil(vec3) *)
Definition ceil3 (x : vec3 S) : vec3 S := V3 (ceil_f (x3 x)) (ceil_f (y3 x)) (ceil_f (z3 x)).
(** common.cpp 78-81: ceil(vec4) *)
Definition ceil4 (x : vec4 S) : vec4 S := V4 (ceil_f (x4 x)) (ceil_f (y4 x)) (ceil_f (z4 x)) (ceil_f (w4 x)).
(** common.cpp 203-206 *)
Definition max_f (x y : S) : S := if x <? y then y else x.
(** common.cpp 208-211: max(vec2, vec2) *)
Definition max2 (x y : vec2 S) : vec2 S :=
  V2 (max_f (x2 x) (x2 y)) (max_f (y2 x) (y2 y)).
(** common.cpp 213-216: max(vec3, vec3) *)
Definition max3 (x y : vec3 S) : vec3 S :=
  V3 (max_f (x3 x) (x3 y)) (max_f (y3 x) (y3 y)) (max_f (z3 x) (z3 y)).
(** common.cpp 218-221: max(vec4, vec4) *)
Definition max4 (x y : vec4 S) : vec4 S :=
  V4 (max_f (x4 x) (x4 y)) (max_f (y4 x) (y4 y)) (max_f (z4 x) (z4 y)) (max_f (w4 x) (w4 y)).
(** common.cpp 247-250 *)
Definition min_f (x y : S) : S := if y <? x then y else x.
(** common.cpp 252-255: min(vec2, vec2) *)
Definition min2 (x y : vec2 S) : vec2 S :=
  V2 (min_f (x2 x) (x2 y)) (min_f (y2 x) (y2 y)).
(** common.cpp 257-260: min(vec3, vec3) *)
Definition min3 (x y : vec3 S) : vec3 S :=
  V3 (min_f (x3 x) (x3 y)) (min_f (y3 x) (y3 y)) (min_f (z3 x) (z3 y)).
(** common.cpp 262-265: min(vec4, vec4) *)
Definition min4 (x y : vec4 S) : vec4 S :=
  V4 (min_f (x4 x) (x4 y)) (min_f (y4 x) (y4 y)) (min_f (z4 x) (z4 y)) (min_f (w4 x) (w4 y)).
(** common.cpp 87-90 *)
Definition clamp_f (x minVal maxVal : S) : S := min_f (max_f x minVal) maxVal.
(** common.cpp 92-95: clamp(vec2) *)
Definition clamp2 (x minVal maxVal : vec2 S) : vec2 S := min2 (max2 x minVal) maxVal.
(** common.cpp 97-100: clamp(vec3) *)
Definition clamp3 (x minVal maxVal : vec3 S) : vec3 S := min3 (max3 x minVal) maxVal.
(** common.cpp 102-105: clamp(vec4) *)
Definition clamp4 (x minVal maxVal : vec4 S) : vec4 S := min4 (max4 x minVal) maxVal.
(** common.cpp 131-134 *)
Definition floor_f (x : S) : S := sfloor x.
(** common.cpp 136-139: floor(vec2) *)
Definition floor2 (x : vec2 S) : vec2 S := V2 (floor_f (x2 x)) (floor_f (y2 x)).
(** common.cpp 141-144: floor(vec3) *)
Definition floor3 (x : vec3 S) : vec3 S := V3 (floor_f (x3 x)) (floor_f (y3 x)) (floor_f (z3 x)).
(** common.cpp 146-149: floor(vec4) *)
Definition floor4 (x : vec4 S) : vec4 S := V4 (floor_f (x4 x)) (floor_f (y4 x)) (floor_f (z4 x)) (floor_f (w4 x)).
(** common.cpp 155-158 *)
Definition fma_f (a b c : S) : S := sfma a b c.
(** common.cpp 160-163: fma(vec2) *)
Definition fma2 (a b c : vec2 S) : vec2 S :=
  V2 (fma_f (x2 a) (x2 b) (x2 c)) (fma_f (y2 a) (y2 b) (y2 c)).
(** common.cpp 165-168: fma(vec3) *)
Definition fma3 (a b c : vec3 S) : vec3 S :=
  V3 (fma_f (x3 a) (x3 b) (x3 c)) (fma_f (y3 a) (y3 b) (y3 c)) (fma_f (z3 a) (z3 b) (z3 c)).
(** common.cpp 170-173: fma(vec4) *)
Definition fma4 (a b c : vec4 S) : vec4 S :=
  V4 (fma_f (x4 a) (x4 b) (x4 c)) (fma_f (y4 a) (y4 b) (y4 c)) (fma_f (z4 a) (z4 b) (z4 c)) (fma_f (w4 a) (w4 b) (w4 c)).
(** common.cpp 179-182 *)
Definition fract_f (x : S) : S := x - floor_f x.
(** common.cpp 184-187: fract(vec2), through the vector operators *)
Definition fract2 (x : vec2 S) : vec2 S := vec2_sub S x (floor2 x).
(** common.cpp 189-192: fract(vec3), through the vector operators *)
Definition fract3 (x : vec3 S) : vec3 S := vec3_sub S x (floor3 x).
(** common.cpp 194-197: fract(vec4), through the vector operators *)
Definition fract4 (x : vec4 S) : vec4 S := vec4_sub S x (floor4 x).
(** common.cpp 291-294 *)
Definition mod_f (x y : S) : S := x - y * floor_f (x / y).
(** common.cpp 296-299: mod(vec2, vec2) *)
Definition mod2 (x y : vec2 S) : vec2 S :=
  V2 (mod_f (x2 x) (x2 y)) (mod_f (y2 x) (y2 y)).
(** common.cpp 301-304: mod(vec3, vec3) *)
Definition mod3 (x y : vec3 S) : vec3 S :=
  V3 (mod_f (x3 x) (x3 y)) (mod_f (y3 x) (y3 y)) (mod_f (z3 x) (z3 y)).
(** common.cpp 306-309: mod(vec4, vec4) *)
Definition mod4 (x y : vec4 S) : vec4 S :=
  V4 (mod_f (x4 x) (x4 y)) (mod_f (y4 x) (y4 y)) (mod_f (z4 x) (z4 y)) (mod_f (w4 x) (w4 y)).
(** common.cpp 311-314: mod(vec2, float) *)
Definition mod2_sc (x : vec2 S) (y : S) : vec2 S := V2 (mod_f (x2 x) y) (mod_f (y2 x) y).
(** common.cpp 316-319: mod(vec3, float) *)
Definition mod3_sc (x : vec3 S) (y : S) : vec3 S := V3 (mod_f (x3 x) y) (mod_f (y3 x) y) (mod_f (z3 x) y).
(** common.cpp 321-324: mod(vec4, float) *)
Definition mod4_sc (x : vec4 S) (y : S) : vec4 S := V4 (mod_f (x4 x) y) (mod_f (y4 x) y) (mod_f (z4 x) y) (mod_f (w4 x) y).
(** common.cpp 330-333 *)
Definition round_f (x : S) : S := sround x.
(** common.cpp 335-338: round(vec2) *)
Definition round2 (x : vec2 S) : vec2 S := V2 (round_f (x2 x)) (round_f (y2 x)).
(** common.cpp 340-343: round(vec3) *)
Definition round3 (x : vec3 S) : vec3 S := V3 (round_f (x3 x)) (round_f (y3 x)) (round_f (z3 x)).
(** common.cpp 345-348: round(vec4) *)
Definition round4 (x : vec4 S) : vec4 S := V4 (round_f (x4 x)) (round_f (y4 x)) (round_f (z4 x)) (round_f (w4 x)).
(** common.cpp 354-357 *)
Definition roundEven_f (x : S) : S := snearbyint (x * f0_5) * f2.
(** common.cpp 359-362: roundEven(vec2) *)
Definition roundEven2 (x : vec2 S) : vec2 S := V2 (roundEven_f (x2 x)) (roundEven_f (y2 x)).
(** common.cpp 364-367: roundEven(vec3) *)
Definition roundEven3 (x : vec3 S) : vec3 S := V3 (roundEven_f (x3 x)) (roundEven_f (y3 x)) (roundEven_f (z3 x)).
(** common.cpp 369-372: roundEven(vec4) *)
Definition roundEven4 (x : vec4 S) : vec4 S := V4 (roundEven_f (x4 x)) (roundEven_f (y4 x)) (roundEven_f (z4 x)) (roundEven_f (w4 x)).
(** common.cpp 378-387 *)
Definition sign_f (x : S) : S :=
  if x =? f0 then f0 else if x >? f0 then f1 else - f1.
(** common.cpp 389-392: sign(vec2) *)
Definition sign2 (x : vec2 S) : vec2 S := V2 (sign_f (x2 x)) (sign_f (y2 x)).
(** common.cpp 394-397: sign(vec3) *)
Definition sign3 (x : vec3 S) : vec3 S := V3 (sign_f (x3 x)) (sign_f (y3 x)) (sign_f (z3 x)).
(** common.cpp 399-402: sign(vec4) *)
Definition sign4 (x : vec4 S) : vec4 S := V4 (sign_f (x4 x)) (sign_f (y4 x)) (sign_f (z4 x)) (sign_f (w4 x)).
(** common.cpp 430-433 *)
Definition signNotZero_f (x : S) : S := if x >=? f0 then f1 else - f1.
(** common.cpp 435-438: signNotZero(vec2) *)
Definition signNotZero2 (x : vec2 S) : vec2 S := V2 (signNotZero_f (x2 x)) (signNotZero_f (y2 x)).
(** common.cpp 440-443: signNotZero(vec3) *)
Definition signNotZero3 (x : vec3 S) : vec3 S := V3 (signNotZero_f (x3 x)) (signNotZero_f (y3 x)) (signNotZero_f (z3 x)).
(** common.cpp 445-448: signNotZero(vec4) *)
Definition signNotZero4 (x : vec4 S) : vec4 S := V4 (signNotZero_f (x4 x)) (signNotZero_f (y4 x)) (signNotZero_f (z4 x)) (signNotZero_f (w4 x)).
(** common.cpp 475-478 *)
Definition trunc_f (x : S) : S := strunc x.
(** common.cpp 480-483: trunc(vec2) *)
Definition trunc2 (x : vec2 S) : vec2 S := V2 (trunc_f (x2 x)) (trunc_f (y2 x)).
(** common.cpp 485-488: trunc(vec3) *)
Definition trunc3 (x : vec3 S) : vec3 S := V3 (trunc_f (x3 x)) (trunc_f (y3 x)) (trunc_f (z3 x)).
(** common.cpp 490-493: trunc(vec4) *)
Definition trunc4 (x : vec4 S) : vec4 S := V4 (trunc_f (x4 x)) (trunc_f (y4 x)) (trunc_f (z4 x)) (trunc_f (w4 x)).
(** common.cpp 499-503 *)
Definition smoothstep_f (edge0 edge1 x : S) : S :=
  let tmp := clamp_f ((x - edge0) / (edge1 - edge0)) f0 f1 in
  tmp * tmp * (f3 - f2 * tmp).
(** common.cpp 505-509: smoothstep(vec2), through the vector operators; 0.0f and 1.0f
    convert to vec2; [3.f - v] has no float overload
    in vec2.hpp and converts 3.f to vec2 *)
Definition smoothstep2 (edge0 edge1 x : vec2 S) : vec2 S :=
  let tmp := clamp2 (vec2_div S (vec2_sub S x edge0) (vec2_sub S edge1 edge0)) (vec2_f S f0) (vec2_f S f1) in
  vec2_mul S (vec2_mul S tmp tmp) (vec2_sub S (vec2_f S f3) (sc_mul_vec2 S f2 tmp)).
(** common.cpp 511-515: smoothstep(vec3), through the vector operators; 0.0f and 1.0f
    convert to vec3 *)
Definition smoothstep3 (edge0 edge1 x : vec3 S) : vec3 S :=
  let tmp := clamp3 (vec3_div S (vec3_sub S x edge0) (vec3_sub S edge1 edge0)) (vec3_f S f0) (vec3_f S f1) in
  vec3_mul S (vec3_mul S tmp tmp) (sc_sub_vec3 S f3 (sc_mul_vec3 S f2 tmp)).
(** common.cpp 518-522: smoothstep(vec4), through the vector operators; 0.0f and 1.0f
    convert to vec4 *)
Definition smoothstep4 (edge0 edge1 x : vec4 S) : vec4 S :=
  let tmp := clamp4 (vec4_div S (vec4_sub S x edge0) (vec4_sub S edge1 edge0)) (vec4_f S f0) (vec4_f S f1) in
  vec4_mul S (vec4_mul S tmp tmp) (sc_sub_vec4 S f3 (sc_mul_vec4 S f2 tmp)).
(** common.cpp 528-531 *)
Definition step_f (edge x : S) : S := if x <? edge then f0 else f1.
(** common.cpp 533-536: step(vec2, vec2) *)
Definition step2 (edge t : vec2 S) : vec2 S :=
  V2 (step_f (x2 edge) (x2 t)) (step_f (y2 edge) (y2 t)).
(** common.cpp 538-541: step(vec3, vec3) *)
Definition step3 (edge t : vec3 S) : vec3 S :=
  V3 (step_f (x3 edge) (x3 t)) (step_f (y3 edge) (y3 t)) (step_f (z3 edge) (z3 t)).
(** common.cpp 543-546: step(vec4, vec4) *)
Definition step4 (edge t : vec4 S) : vec4 S :=
  V4 (step_f (x4 edge) (x4 t)) (step_f (y4 edge) (y4 t)) (step_f (z4 edge) (z4 t)) (step_f (w4 edge) (w4 t)).
(** common.cpp 552-555 *)
Definition mix_f (x y t : S) : S := x + t * (y - x).
(** common.cpp 557-561: mix(vec2, vec2, vec2) *)
Definition mix2 (x y t : vec2 S) : vec2 S :=
  V2 (mix_f (x2 x) (x2 y) (x2 t)) (mix_f (y2 x) (y2 y) (y2 t)).
(** common.cpp 563-568: mix(vec3, vec3, vec3) *)
Definition mix3 (x y t : vec3 S) : vec3 S :=
  V3 (mix_f (x3 x) (x3 y) (x3 t)) (mix_f (y3 x) (y3 y) (y3 t)) (mix_f (z3 x) (z3 y) (z3 t)).
(** common.cpp 570-576: mix(vec4, vec4, vec4) *)
Definition mix4 (x y t : vec4 S) : vec4 S :=
  V4 (mix_f (x4 x) (x4 y) (x4 t)) (mix_f (y4 x) (y4 y) (y4 t)) (mix_f (z4 x) (z4 y) (z4 t)) (mix_f (w4 x) (w4 y) (w4 t)).
(** common.cpp 579-583: mix(vec2, vec2, float) *)
Definition mix2_sc (x y : vec2 S) (t : S) : vec2 S :=
  V2 (mix_f (x2 x) (x2 y) t) (mix_f (y2 x) (y2 y) t).
(** common.cpp 585-590: mix(vec3, vec3, float) *)
Definition mix3_sc (x y : vec3 S) (t : S) : vec3 S :=
  V3 (mix_f (x3 x) (x3 y) t) (mix_f (y3 x) (y3 y) t) (mix_f (z3 x) (z3 y) t).
(** common.cpp 592-598: mix(vec4, vec4, float) *)
Definition mix4_sc (x y : vec4 S) (t : S) : vec4 S :=
  V4 (mix_f (x4 x) (x4 y) t) (mix_f (y4 x) (y4 y) t) (mix_f (z4 x) (z4 y) t) (mix_f (w4 x) (w4 y) t).
(** common.cpp 603-606 *)
Definition mix_b (x y : S) (t : bool) : S := if t then y else x.
(** common.cpp 608-612: mix(vec2, vec2, bvec2) *)
Definition mix2_b (x y : vec2 S) (t : vec2 bool) : vec2 S :=
  V2 (mix_b (x2 x) (x2 y) (x2 t)) (mix_b (y2 x) (y2 y) (y2 t)).
(** common.cpp 614-619: mix(vec3, vec3, bvec3) *)
Definition mix3_b (x y : vec3 S) (t : vec3 bool) : vec3 S :=
  V3 (mix_b (x3 x) (x3 y) (x3 t)) (mix_b (y3 x) (y3 y) (y3 t)) (mix_b (z3 x) (z3 y) (z3 t)).
(** common.cpp 621-627: mix(vec4, vec4, bvec4) *)
Definition mix4_b (x y : vec4 S) (t : vec4 bool) : vec4 S :=
  V4 (mix_b (x4 x) (x4 y) (x4 t)) (mix_b (y4 x) (y4 y) (y4 t)) (mix_b (z4 x) (z4 y) (z4 t)) (mix_b (w4 x) (w4 y) (w4 t)).
(** common.cpp 633-636 *)
Definition isinf_f (x : S) : bool := sisinf x.
(** common.cpp 638-641: isinf(vec2) *)
Definition isinf2 (x : vec2 S) : vec2 bool := V2 (isinf_f (x2 x)) (isinf_f (y2 x)).
(** common.cpp 643-646: isinf(vec3) *)
Definition isinf3 (x : vec3 S) : vec3 bool := V3 (isinf_f (x3 x)) (isinf_f (y3 x)) (isinf_f (z3 x)).
(** common.cpp 648-651: isinf(vec4) *)
Definition isinf4 (x : vec4 S) : vec4 bool := V4 (isinf_f (x4 x)) (isinf_f (y4 x)) (isinf_f (z4 x)) (isinf_f (w4 x)).
(** common.cpp 653-656: isinf(quat) *)
Definition isinf_q (x : quat S) : vec4 bool := V4 (isinf_f (qx x)) (isinf_f (qy x)) (isinf_f (qz x)) (isinf_f (qw x)).
(** common.cpp 662-665 *)
Definition isnan_f (x : S) : bool := sisnan x.
(** common.cpp 667-670: isnan(vec2) *)
Definition isnan2 (x : vec2 S) : vec2 bool := V2 (isnan_f (x2 x)) (isnan_f (y2 x)).
(** common.cpp 672-675: isnan(vec3) *)
Definition isnan3 (x : vec3 S) : vec3 bool := V3 (isnan_f (x3 x)) (isnan_f (y3 x)) (isnan_f (z3 x)).
(** common.cpp 677-680: isnan(vec4) *)
Definition isnan4 (x : vec4 S) : vec4 bool := V4 (isnan_f (x4 x)) (isnan_f (y4 x)) (isnan_f (z4 x)) (isnan_f (w4 x)).
(** common.cpp 682-685: isnan(quat) *)
Definition isnan_q (x : quat S) : vec4 bool := V4 (isnan_f (qx x)) (isnan_f (qy x)) (isnan_f (qz x)) (isnan_f (qw x)).
(** common.cpp 691-694: lessThan(vec2, vec2) *)
Definition lessThan2 (x y : vec2 S) : vec2 bool := V2 (x2 x <? x2 y) (y2 x <? y2 y).
(** common.cpp 696-699: lessThan(vec3, vec3) *)
Definition lessThan3 (x y : vec3 S) : vec3 bool := V3 (x3 x <? x3 y) (y3 x <? y3 y) (z3 x <? z3 y).
(** common.cpp 701-704: lessThan(vec4, vec4) *)
Definition lessThan4 (x y : vec4 S) : vec4 bool := V4 (x4 x <? x4 y) (y4 x <? y4 y) (z4 x <? z4 y) (w4 x <? w4 y).
(** common.cpp 710-713: lessThanEqual(vec2, vec2) *)
Definition lessThanEqual2 (x y : vec2 S) : vec2 bool := V2 (x2 x <=? x2 y) (y2 x <=? y2 y).
(** common.cpp 715-718: lessThanEqual(vec3, vec3) *)
Definition lessThanEqual3 (x y : vec3 S) : vec3 bool := V3 (x3 x <=? x3 y) (y3 x <=? y3 y) (z3 x <=? z3 y).
(** common.cpp 720-723: lessThanEqual(vec4, vec4) *)
Definition lessThanEqual4 (x y : vec4 S) : vec4 bool := V4 (x4 x <=? x4 y) (y4 x <=? y4 y) (z4 x <=? z4 y) (w4 x <=? w4 y).
(** common.cpp 729-732: greaterThan(vec2, vec2) *)
Definition greaterThan2 (x y : vec2 S) : vec2 bool := V2 (x2 x >? x2 y) (y2 x >? y2 y).
(** common.cpp 734-737: greaterThan(vec3, vec3) *)
Definition greaterThan3 (x y : vec3 S) : vec3 bool := V3 (x3 x >? x3 y) (y3 x >? y3 y) (z3 x >? z3 y).
(** common.cpp 739-742: greaterThan(vec4, vec4) *)
Definition greaterThan4 (x y : vec4 S) : vec4 bool := V4 (x4 x >? x4 y) (y4 x >? y4 y) (z4 x >? z4 y) (w4 x >? w4 y).
(** common.cpp 748-751: greaterThanEqual(vec2, vec2) *)
Definition greaterThanEqual2 (x y : vec2 S) : vec2 bool := V2 (x2 x >=? x2 y) (y2 x >=? y2 y).
(** common.cpp 753-756: greaterThanEqual(vec3, vec3) *)
Definition greaterThanEqual3 (x y : vec3 S) : vec3 bool := V3 (x3 x >=? x3 y) (y3 x >=? y3 y) (z3 x >=? z3 y).
(** common.cpp 758-761: greaterThanEqual(vec4, vec4) *)
Definition greaterThanEqual4 (x y : vec4 S) : vec4 bool := V4 (x4 x >=? x4 y) (y4 x >=? y4 y) (z4 x >=? z4 y) (w4 x >=? w4 y).
(** common.cpp 767-770: equal(vec2, vec2) *)
Definition equal2 (x y : vec2 S) : vec2 bool := V2 (x2 x =? x2 y) (y2 x =? y2 y).
(** common.cpp 772-775: equal(vec3, vec3) *)
Definition equal3 (x y : vec3 S) : vec3 bool := V3 (x3 x =? x3 y) (y3 x =? y3 y) (z3 x =? z3 y).
(** common.cpp 777-780: equal(vec4, vec4) *)
Definition equal4 (x y : vec4 S) : vec4 bool := V4 (x4 x =? x4 y) (y4 x =? y4 y) (z4 x =? z4 y) (w4 x =? w4 y).
(** common.cpp 782-785: equal(quat, quat) *)
Definition equal_q (x y : quat S) : vec4 bool :=
  V4 (qx x =? qx y) (qy x =? qy y) (qz x =? qz y) (qw x =? qw y).
(** common.cpp 810-813: notEqual(vec2, vec2); [!=] is the negation of [==] *)
Definition notEqual2 (x y : vec2 S) : vec2 bool := V2 (negb (x2 x =? x2 y)) (negb (y2 x =? y2 y)).
(** common.cpp 815-818: notEqual(vec3, vec3); [!=] is the negation of [==] *)
Definition notEqual3 (x y : vec3 S) : vec3 bool := V3 (negb (x3 x =? x3 y)) (negb (y3 x =? y3 y)) (negb (z3 x =? z3 y)).
(** common.cpp 820-823: notEqual(vec4, vec4); [!=] is the negation of [==] *)
Definition notEqual4 (x y : vec4 S) : vec4 bool := V4 (negb (x4 x =? x4 y)) (negb (y4 x =? y4 y)) (negb (z4 x =? z4 y)) (negb (w4 x =? w4 y)).
(** common.cpp 825-828: notEqual(quat, quat) *)
Definition notEqual_q (x y : quat S) : vec4 bool :=
  V4 (negb (qx x =? qx y)) (negb (qy x =? qy y)) (negb (qz x =? qz y)) (negb (qw x =? qw y)).

End Common.

(** ** bool vectors *)

(** common.cpp 791-794: equal(bvec2, bvec2) *)
Definition bequal2 (x y : vec2 bool) : vec2 bool := V2 (eqb (x2 x) (x2 y)) (eqb (y2 x) (y2 y)).
(** common.cpp 796-799: equal(bvec3, bvec3) *)
Definition bequal3 (x y : vec3 bool) : vec3 bool := V3 (eqb (x3 x) (x3 y)) (eqb (y3 x) (y3 y)) (eqb (z3 x) (z3 y)).
(** common.cpp 801-804: equal(bvec4, bvec4) *)
Definition bequal4 (x y : vec4 bool) : vec4 bool := V4 (eqb (x4 x) (x4 y)) (eqb (y4 x) (y4 y)) (eqb (z4 x) (z4 y)) (eqb (w4 x) (w4 y)).
(** common.cpp 834-837: notEqual(bvec2, bvec2) *)
Definition bnotEqual2 (x y : vec2 bool) : vec2 bool := V2 (negb (eqb (x2 x) (x2 y))) (negb (eqb (y2 x) (y2 y))).
(** common.cpp 839-842: notEqual(bvec3, bvec3) *)
Definition bnotEqual3 (x y : vec3 bool) : vec3 bool := V3 (negb (eqb (x3 x) (x3 y))) (negb (eqb (y3 x) (y3 y))) (negb (eqb (z3 x) (z3 y))).
(** common.cpp 844-847: notEqual(bvec4, bvec4) *)
Definition bnotEqual4 (x y : vec4 bool) : vec4 bool := V4 (negb (eqb (x4 x) (x4 y))) (negb (eqb (y4 x) (y4 y))) (negb (eqb (z4 x) (z4 y))) (negb (eqb (w4 x) (w4 y))).
(** common.cpp 852-855: all(bvec2) *)
Definition all2 (x : vec2 bool) : bool := x2 x && y2 x.
(** common.cpp 857-860: all(bvec3) *)
Definition all3 (x : vec3 bool) : bool := x3 x && y3 x && z3 x.
(** common.cpp 862-865: all(bvec4) *)
Definition all4 (x : vec4 bool) : bool := x4 x && y4 x && z4 x && w4 x.
(** common.cpp 871-874: any(bvec2) *)
Definition any2 (x : vec2 bool) : bool := x2 x || y2 x.
(** common.cpp 876-879: any(bvec3) *)
Definition any3 (x : vec3 bool) : bool := x3 x || y3 x || z3 x.
(** common.cpp 881-884: any(bvec4) *)
Definition any4 (x : vec4 bool) : bool := x4 x || y4 x || z4 x || w4 x.

(** ** int and int vectors *)
Local Open Scope Z_scope.

(** common.cpp 39-42: abs(int); [std::abs(INT_MIN)] is undefined *)
Definition abs_i (x : Z) : outcome Z := chk (Z.abs x).
(** common.cpp 44-47: abs(ivec2) *)
Definition iabs2 (x : vec2 Z) : outcome (vec2 Z) :=
  do e0 <- abs_i (x2 x);
  do e1 <- abs_i (y2 x);
  Ret (V2 e0 e1).
(** common.cpp 49-52: abs(ivec3) *)
Definition iabs3 (x : vec3 Z) : outcome (vec3 Z) :=
  do e0 <- abs_i (x3 x);
  do e1 <- abs_i (y3 x);
  do e2 <- abs_i (z3 x);
  Ret (V3 e0 e1 e2).
(** common.cpp 54-57: abs(ivec4) *)
Definition iabs4 (x : vec4 Z) : outcome (vec4 Z) :=
  do e0 <- abs_i (x4 x);
  do e1 <- abs_i (y4 x);
  do e2 <- abs_i (z4 x);
  do e3 <- abs_i (w4 x);
  Ret (V4 e0 e1 e2 e3).
(** common.cpp 223-226: max(int, int) *)
Definition max_i (x y : Z) : Z := if x <? y then y else x.
(** common.cpp 267-270: min(int, int) *)
Definition min_i (x y : Z) : Z := if y <? x then y else x.
(** common.cpp 228-231: max(ivec2, ivec2) *)
Definition imax2 (x y : vec2 Z) : vec2 Z := V2 (max_i (x2 x) (x2 y)) (max_i (y2 x) (y2 y)).
(** common.cpp 233-236: max(ivec3, ivec3) *)
Definition imax3 (x y : vec3 Z) : vec3 Z := V3 (max_i (x3 x) (x3 y)) (max_i (y3 x) (y3 y)) (max_i (z3 x) (z3 y)).
(** common.cpp 238-241: max(ivec4, ivec4) *)
Definition imax4 (x y : vec4 Z) : vec4 Z := V4 (max_i (x4 x) (x4 y)) (max_i (y4 x) (y4 y)) (max_i (z4 x) (z4 y)) (max_i (w4 x) (w4 y)).
(** common.cpp 272-275: min(ivec2, ivec2) *)
Definition imin2 (x y : vec2 Z) : vec2 Z := V2 (min_i (x2 x) (x2 y)) (min_i (y2 x) (y2 y)).
(** common.cpp 277-280: min(ivec3, ivec3) *)
Definition imin3 (x y : vec3 Z) : vec3 Z := V3 (min_i (x3 x) (x3 y)) (min_i (y3 x) (y3 y)) (min_i (z3 x) (z3 y)).
(** common.cpp 282-285: min(ivec4, ivec4) *)
Definition imin4 (x y : vec4 Z) : vec4 Z := V4 (min_i (x4 x) (x4 y)) (min_i (y4 x) (y4 y)) (min_i (z4 x) (z4 y)) (min_i (w4 x) (w4 y)).
(** common.cpp 107-110: clamp(int) *)
Definition clamp_i (x minVal maxVal : Z) : Z := min_i (max_i x minVal) maxVal.
(** common.cpp 112-115: clamp(ivec2) *)
Definition iclamp2 (x minVal maxVal : vec2 Z) : vec2 Z := imin2 (imax2 x minVal) maxVal.
(** common.cpp 117-120: clamp(ivec3) *)
Definition iclamp3 (x minVal maxVal : vec3 Z) : vec3 Z := imin3 (imax3 x minVal) maxVal.
(** common.cpp 122-125: clamp(ivec4) *)
Definition iclamp4 (x minVal maxVal : vec4 Z) : vec4 Z := imin4 (imax4 x minVal) maxVal.
(** common.cpp 404-413: sign(int) *)
Definition sign_i (x : Z) : Z := if x =? 0 then 0 else if x >? 0 then 1 else -1.
(** common.cpp 450-453: signNotZero(int) *)
Definition signNotZero_i (x : Z) : Z := if x >=? 0 then 1 else -1.
(** common.cpp 415-418: sign(ivec2) *)
Definition isign2 (x : vec2 Z) : vec2 Z := V2 (sign_i (x2 x)) (sign_i (y2 x)).
(** common.cpp 420-423: sign(ivec3) *)
Definition isign3 (x : vec3 Z) : vec3 Z := V3 (sign_i (x3 x)) (sign_i (y3 x)) (sign_i (z3 x)).
(** common.cpp 425-428: sign(ivec4) *)
Definition isign4 (x : vec4 Z) : vec4 Z := V4 (sign_i (x4 x)) (sign_i (y4 x)) (sign_i (z4 x)) (sign_i (w4 x)).
(** common.cpp 455-458: signNotZero(ivec2) *)
Definition isignNotZero2 (x : vec2 Z) : vec2 Z := V2 (signNotZero_i (x2 x)) (signNotZero_i (y2 x)).
(** common.cpp 460-463: signNotZero(ivec3) *)
Definition isignNotZero3 (x : vec3 Z) : vec3 Z := V3 (signNotZero_i (x3 x)) (signNotZero_i (y3 x)) (signNotZero_i (z3 x)).
(** common.cpp 465-468: signNotZero(ivec4) *)
Definition isignNotZero4 (x : vec4 Z) : vec4 Z := V4 (signNotZero_i (x4 x)) (signNotZero_i (y4 x)) (signNotZero_i (z4 x)) (signNotZero_i (w4 x)).
