(** * src/exponential.cpp

    A quat initialiser [{a, b, c, d}] calls quat(w, x, y, z). *)
From Coq Require Import ZArith Bool List.
From Verif Require Import Scalar Outcome Types ModelVec ModelQuat.
Local Open Scope scalar_scope.

Section Exponential.
Variable S : Scalar.

(** exponential.cpp 9-12 *)
Definition sqrt_f (x : S) : S := ssqrt x.
(** exponential.cpp 14-17: sqrt(vec2) *)
Definition sqrt2 (x : vec2 S) : vec2 S := V2 (sqrt_f (x2 x)) (sqrt_f (y2 x)).
(** exponential.cpp 19-22: sqrt(vec3) *)
Definition sqrt3 (x : vec3 S) : vec3 S := V3 (sqrt_f (x3 x)) (sqrt_f (y3 x)) (sqrt_f (z3 x)).
(** exponential.cpp 24-27: sqrt(vec4) *)
Definition sqrt4 (x : vec4 S) : vec4 S := V4 (sqrt_f (x4 x)) (sqrt_f (y4 x)) (sqrt_f (z4 x)) (sqrt_f (w4 x)).
(** exponential.cpp 29-32: sqrt(quat) *)
Definition sqrt_q (x : quat S) : quat S :=
  quat_wxyz S (sqrt_f (qw x)) (sqrt_f (qx x)) (sqrt_f (qy x)) (sqrt_f (qz x)).
(** exponential.cpp 38-41 *)
Definition pow_f (x y : S) : S := mpow x y.
(** exponential.cpp 43-46: pow(vec2, vec2) *)
Definition pow2 (x y : vec2 S) : vec2 S :=
  V2 (pow_f (x2 x) (x2 y)) (pow_f (y2 x) (y2 y)).
(** exponential.cpp 48-51: pow(vec3, vec3) *)
Definition pow3 (x y : vec3 S) : vec3 S :=
  V3 (pow_f (x3 x) (x3 y)) (pow_f (y3 x) (y3 y)) (pow_f (z3 x) (z3 y)).
(** exponential.cpp 53-56: pow(vec4, vec4) *)
Definition pow4 (x y : vec4 S) : vec4 S :=
  V4 (pow_f (x4 x) (x4 y)) (pow_f (y4 x) (y4 y)) (pow_f (z4 x) (z4 y)) (pow_f (w4 x) (w4 y)).
(** exponential.cpp 58-61: pow(quat, float) *)
Definition pow_q (x : quat S) (y : S) : quat S :=
  quat_wxyz S (pow_f (qw x) y) (pow_f (qx x) y) (pow_f (qy x) y) (pow_f (qz x) y).
(** exponential.cpp 67-70 *)
Definition log_f (x : S) : S := mlog x.
(** exponential.cpp 72-75: log(vec2) *)
Definition log2 (x : vec2 S) : vec2 S := V2 (log_f (x2 x)) (log_f (y2 x)).
(** exponential.cpp 77-80: log(vec3) *)
Definition log3 (x : vec3 S) : vec3 S := V3 (log_f (x3 x)) (log_f (y3 x)) (log_f (z3 x)).
(** exponential.cpp 82-85: log(vec4) *)
Definition log4 (x : vec4 S) : vec4 S := V4 (log_f (x4 x)) (log_f (y4 x)) (log_f (z4 x)) (log_f (w4 x)).
(** exponential.cpp 88-91: log(quat) *)
Definition log_q (x : quat S) : quat S :=
  quat_wxyz S (log_f (qw x)) (log_f (qx x)) (log_f (qy x)) (log_f (qz x)).
(** exponential.cpp 97-100 *)
Definition log2_f (x : S) : S := mlog2 x.
(** exponential.cpp 102-105: log2(vec2) *)
Definition log22 (x : vec2 S) : vec2 S := V2 (log2_f (x2 x)) (log2_f (y2 x)).
(** exponential.cpp 107-110: log2(vec3) *)
Definition log23 (x : vec3 S) : vec3 S := V3 (log2_f (x3 x)) (log2_f (y3 x)) (log2_f (z3 x)).
(** exponential.cpp 112-115: log2(vec4) *)
Definition log24 (x : vec4 S) : vec4 S := V4 (log2_f (x4 x)) (log2_f (y4 x)) (log2_f (z4 x)) (log2_f (w4 x)).
(** exponential.cpp 118-121: log2(quat) *)
Definition log2_q (x : quat S) : quat S :=
  quat_wxyz S (log2_f (qw x)) (log2_f (qx x)) (log2_f (qy x)) (log2_f (qz x)).
(** exponential.cpp 127-130 *)
Definition inversesqrt_f (x : S) : S := f1 / sqrt_f x.
(** exponential.cpp 132-135: inversesqrt(vec2), through float / vec2 *)
Definition inversesqrt2 (x : vec2 S) : vec2 S := sc_div_vec2 S f1 (sqrt2 x).
(** exponential.cpp 137-140: inversesqrt(vec3), through float / vec3 *)
Definition inversesqrt3 (x : vec3 S) : vec3 S := sc_div_vec3 S f1 (sqrt3 x).
(** exponential.cpp 142-145: inversesqrt(vec4), through float / vec4 *)
Definition inversesqrt4 (x : vec4 S) : vec4 S := sc_div_vec4 S f1 (sqrt4 x).
(** exponential.cpp 147-150: inversesqrt(quat), through float / quat *)
Definition inversesqrt_q (x : quat S) : quat S := sc_div_quat S f1 (sqrt_q x).
(** exponential.cpp 156-159 *)
Definition exp_f (x : S) : S := mexp x.
(** exponential.cpp 161-164: exp(vec2) *)
Definition exp2 (x : vec2 S) : vec2 S := V2 (exp_f (x2 x)) (exp_f (y2 x)).
(** exponential.cpp 166-169: exp(vec3) *)
Definition exp3 (x : vec3 S) : vec3 S := V3 (exp_f (x3 x)) (exp_f (y3 x)) (exp_f (z3 x)).
(** exponential.cpp 171-174: exp(vec4) *)
Definition exp4 (x : vec4 S) : vec4 S := V4 (exp_f (x4 x)) (exp_f (y4 x)) (exp_f (z4 x)) (exp_f (w4 x)).
(** exponential.cpp 176-179: exp(quat) *)
Definition exp_q (x : quat S) : quat S :=
  quat_wxyz S (exp_f (qw x)) (exp_f (qx x)) (exp_f (qy x)) (exp_f (qz x)).
(** exponential.cpp 185-188 *)
Definition exp2_f (x : S) : S := mexp x.
(** exponential.cpp 190-193: exp2(vec2) *)
Definition exp22 (x : vec2 S) : vec2 S := V2 (exp2_f (x2 x)) (exp2_f (y2 x)).
(** exponential.cpp 195-198: exp2(vec3) *)
Definition exp23 (x : vec3 S) : vec3 S := V3 (exp2_f (x3 x)) (exp2_f (y3 x)) (exp2_f (z3 x)).
(** exponential.cpp 200-203: exp2(vec4) *)
Definition exp24 (x : vec4 S) : vec4 S := V4 (exp2_f (x4 x)) (exp2_f (y4 x)) (exp2_f (z4 x)) (exp2_f (w4 x)).
(** exponential.cpp 205-208: exp2(quat) *)
Definition exp2_q (x : quat S) : quat S :=
  quat_wxyz S (exp2_f (qw x)) (exp2_f (qx x)) (exp2_f (qy x)) (exp2_f (qz x)).
(** exponential.cpp 214-217 *)
Definition cbrt_f (x : S) : S := mcbrt x.
(** exponential.cpp 219-222: cbrt(vec2) *)
Definition cbrt2 (x : vec2 S) : vec2 S := V2 (cbrt_f (x2 x)) (cbrt_f (y2 x)).
(** exponential.cpp 224-227: cbrt(vec3) *)
Definition cbrt3 (x : vec3 S) : vec3 S := V3 (cbrt_f (x3 x)) (cbrt_f (y3 x)) (cbrt_f (z3 x)).
(** exponential.cpp 229-232: cbrt(vec4) *)
Definition cbrt4 (x : vec4 S) : vec4 S := V4 (cbrt_f (x4 x)) (cbrt_f (y4 x)) (cbrt_f (z4 x)) (cbrt_f (w4 x)).
(** exponential.cpp 234-237: cbrt(quat) *)
Definition cbrt_q (x : quat S) : quat S :=
  quat_wxyz S (cbrt_f (qw x)) (cbrt_f (qx x)) (cbrt_f (qy x)) (cbrt_f (qz x)).

End Exponential.
