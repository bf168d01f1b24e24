(** * src/geometric.cpp *)
From Coq Require Import ZArith Bool List.
From Verif Require Import Scalar Outcome Types ModelVec ModelCommon ModelQuat ModelExp.
Local Open Scope scalar_scope.

Section Geometric.
Variable S : Scalar.

(** geometric.cpp 11-14 *)
Definition dot_f (first second : S) : S := first * second.
(** geometric.cpp 16-19 *)
Definition dot2 (first second : vec2 S) : S :=
  x2 first * x2 second + y2 first * y2 second.
(** geometric.cpp 21-24 *)
Definition dot3 (first second : vec3 S) : S :=
  x3 first * x3 second + y3 first * y3 second + z3 first * z3 second.
(** geometric.cpp 26-29 *)
Definition dot4 (first second : vec4 S) : S :=
  x4 first * x4 second + y4 first * y4 second + z4 first * z4 second + w4 first * w4 second.
(** geometric.cpp 31-34 *)
Definition dot_q (first second : quat S) : S :=
  qx first * qx second + qy first * qy second + qz first * qz second + qw first * qw second.
(** geometric.cpp 40-45 *)
Definition cross (first second : vec3 S) : vec3 S :=
  V3 (y3 first * z3 second - z3 first * y3 second)
     (z3 first * x3 second - x3 first * z3 second)
     (x3 first * y3 second - y3 first * x3 second).
(** geometric.cpp 214-217: length(float) *)
Definition length_f (first : S) : S := first.
(** geometric.cpp 219-222 *)
Definition length2 (first : vec2 S) : S :=
  sqrt_f S (x2 first * x2 first + y2 first * y2 first).
(** geometric.cpp 225-228 *)
Definition length3 (first : vec3 S) : S :=
  sqrt_f S (x3 first * x3 first + y3 first * y3 first + z3 first * z3 first).
(** geometric.cpp 231-234 *)
Definition length4 (first : vec4 S) : S :=
  sqrt_f S (x4 first * x4 first + y4 first * y4 first + z4 first * z4 first + w4 first * w4 first).
(** geometric.cpp 236-239 *)
Definition length_q (first : quat S) : S :=
  sqrt_f S (qx first * qx first + qy first * qy first + qz first * qz first + qw first * qw first).
(** geometric.cpp 50-53 *)
Definition normalize2 (vec : vec2 S) : vec2 S := vec2_mul_sc S vec (inversesqrt_f S (dot2 vec vec)).
(** geometric.cpp 55-58 *)
Definition normalize3 (vec : vec3 S) : vec3 S := vec3_mul_sc S vec (inversesqrt_f S (dot3 vec vec)).
(** geometric.cpp 60-63 *)
Definition normalize4 (vec : vec4 S) : vec4 S := vec4_mul_sc S vec (inversesqrt_f S (dot4 vec vec)).
(** geometric.cpp 65-68 *)
Definition normalize_q (q : quat S) : quat S := quat_div_sc S q (length_q q).
(** geometric.cpp 74-77 *)
Definition distance_f (first second : S) : S := abs_f S (first - second).
(** geometric.cpp 79-82 *)
Definition distance2 (first second : vec2 S) : S := length2 (vec2_sub S first second).
(** geometric.cpp 84-87 *)
Definition distance3 (first second : vec3 S) : S := length3 (vec3_sub S first second).
(** geometric.cpp 89-92 *)
Definition distance4 (first second : vec4 S) : S := length4 (vec4_sub S first second).
(** geometric.cpp 98-106 *)
Definition faceforward_f (N I Nref : S) : S := if dot_f Nref I <? f0 then N else - N.
(** geometric.cpp 108-116 *)
Definition faceforward2 (N I Nref : vec2 S) : vec2 S :=
  if dot2 Nref I <? f0 then N else vec2_neg S N.
(** geometric.cpp 118-126 *)
Definition faceforward3 (N I Nref : vec3 S) : vec3 S :=
  if dot3 Nref I <? f0 then N else vec3_neg S N.
(** geometric.cpp 128-136 *)
Definition faceforward4 (N I Nref : vec4 S) : vec4 S :=
  if dot4 Nref I <? f0 then N else vec4_neg S N.
(** geometric.cpp 142-145 *)
Definition reflect_f (I N : S) : S := I - f2 * dot_f N I * N.
(** geometric.cpp 147-150 *)
Definition reflect2 (I N : vec2 S) : vec2 S :=
  vec2_sub S I (sc_mul_vec2 S (f2 * dot2 N I) N).
(** geometric.cpp 152-155 *)
Definition reflect3 (I N : vec3 S) : vec3 S :=
  vec3_sub S I (sc_mul_vec3 S (f2 * dot3 N I) N).
(** geometric.cpp 157-160 *)
Definition reflect4 (I N : vec4 S) : vec4 S :=
  vec4_sub S I (sc_mul_vec4 S (f2 * dot4 N I) N).
(** geometric.cpp 166-175 *)
Definition refract_f (I N eta : S) : S :=
  let k := f1 - eta * eta * (f1 - dot_f N I * dot_f N I) in
  if k <? f0 then f0 else eta * I - (eta * dot_f N I + sqrt_f S k) * N.
(** geometric.cpp 177-186 *)
Definition refract2 (I N : vec2 S) (eta : S) : vec2 S :=
  let k := f1 - eta * eta * (f1 - dot2 N I * dot2 N I) in
  if k <? f0 then vec2_f S f0
  else vec2_sub S (sc_mul_vec2 S eta I) (sc_mul_vec2 S (eta * dot2 N I + sqrt_f S k) N).
(** geometric.cpp 188-197 *)
Definition refract3 (I N : vec3 S) (eta : S) : vec3 S :=
  let k := f1 - eta * eta * (f1 - dot3 N I * dot3 N I) in
  if k <? f0 then vec3_f S f0
  else vec3_sub S (sc_mul_vec3 S eta I) (sc_mul_vec3 S (eta * dot3 N I + sqrt_f S k) N).
(** geometric.cpp 199-208 *)
Definition refract4 (I N : vec4 S) (eta : S) : vec4 S :=
  let k := f1 - eta * eta * (f1 - dot4 N I * dot4 N I) in
  if k <? f0 then vec4_f S f0
  else vec4_sub S (sc_mul_vec4 S eta I) (sc_mul_vec4 S (eta * dot4 N I + sqrt_f S k) N).
(** geometric.cpp 245-248 *)
Definition length2_f (first : S) : S := dot_f first first.
(** geometric.cpp 250-253 *)
Definition length2_2 (first : vec2 S) : S := dot2 first first.
(** geometric.cpp 255-258 *)
Definition length2_3 (first : vec3 S) : S := dot3 first first.
(** geometric.cpp 260-263 *)
Definition length2_4 (first : vec4 S) : S := dot4 first first.
(** geometric.cpp 265-268 *)
Definition length2_q (first : quat S) : S := dot_q first first.
(** geometric.cpp 274-277 *)
Definition distance2_f (first second : S) : S := length2_f (first - second).
(** geometric.cpp 279-282 *)
Definition distance2_2 (first second : vec2 S) : S := length2_2 (vec2_sub S first second).
(** geometric.cpp 284-287; calls length, not length2 *)
Definition distance2_3 (first second : vec3 S) : S := length3 (vec3_sub S first second).
(** geometric.cpp 289-292; calls length, not length2 *)
Definition distance2_4 (first second : vec4 S) : S := length4 (vec4_sub S first second).
(** geometric.cpp 298-302 *)
Definition orthogonal (v : vec3 S) : vec3 S :=
  if abs_f S (x3 v) >? abs_f S (z3 v) then V3 (- y3 v) (x3 v) f0 else V3 f0 (- z3 v) (y3 v).
(** geometric.cpp 305-309 *)
Definition orthogonal_branchless (v : vec3 S) : vec3 S :=
  let k := fract_f S (abs_f S (x3 v) + f0_5) in
  V3 (- y3 v) (x3 v - k * z3 v) (k * y3 v).
(** geometric.cpp 312-324; [1.0f - vec2] converts 1.0f to vec2 *)
Definition encode_octahedral (v : vec3 S) : vec2 S :=
  let p := vec2_mul_sc S (V2 (x3 v) (y3 v))
             (f1 / (abs_f S (x3 v) + abs_f S (y3 v) + abs_f S (z3 v))) in
  if z3 v <=? f0
  then vec2_mul S (vec2_sub S (vec2_f S f1) (abs2 S (V2 (y2 p) (x2 p)))) (signNotZero2 S p)
  else p.
(** geometric.cpp 326-334; [v.x] is updated before it is read for [v.y] *)
Definition decode_octahedral (e : vec2 S) : vec3 S :=
  let v := V3 (x2 e) (y2 e) (f1 - abs_f S (x2 e) - abs_f S (y2 e)) in
  let v := if z3 v <? f0
           then
             let v := set3 v 0 (f1 - abs_f S (y3 v) * signNotZero_f S (x3 v)) in
             set3 v 1 (f1 - abs_f S (x3 v) * signNotZero_f S (y3 v))
           else v in
  normalize3 v.

End Geometric.
