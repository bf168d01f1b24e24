(** * src/component_wise.cpp *)
From Coq Require Import ZArith Bool List.
From Verif Require Import Scalar Outcome Types Int32 ModelCommon.
Local Open Scope outcome_scope.
Local Open Scope scalar_scope.

Section ComponentWise.
Variable S : Scalar.

(** component_wise.cpp 11-14: compAdd(vec2) *)
Definition compAdd2 (v : vec2 S) : S := x2 v + y2 v.
(** component_wise.cpp 16-19: compAdd(vec3) *)
Definition compAdd3 (v : vec3 S) : S := x3 v + y3 v + z3 v.
(** component_wise.cpp 21-24: compAdd(vec4) *)
Definition compAdd4 (v : vec4 S) : S := x4 v + y4 v + z4 v + w4 v.
(** component_wise.cpp 41-44: compMul(vec2) *)
Definition compMul2 (v : vec2 S) : S := x2 v * y2 v.
(** component_wise.cpp 46-49: compMul(vec3) *)
Definition compMul3 (v : vec3 S) : S := x3 v * y3 v * z3 v.
(** component_wise.cpp 51-54: compMul(vec4) *)
Definition compMul4 (v : vec4 S) : S := x4 v * y4 v * z4 v * w4 v.
(** component_wise.cpp 71-74: compMin(vec2) *)
Definition compMin2 (v : vec2 S) : S := min_f S (x2 v) (y2 v).
(** component_wise.cpp 76-79: compMin(vec3) *)
Definition compMin3 (v : vec3 S) : S := min_f S (x3 v) (min_f S (y3 v) (z3 v)).
(** component_wise.cpp 81-84: compMin(vec4) *)
Definition compMin4 (v : vec4 S) : S := min_f S (min_f S (x4 v) (y4 v)) (min_f S (z4 v) (w4 v)).
(** component_wise.cpp 101-104: compMax(vec2) *)
Definition compMax2 (v : vec2 S) : S := max_f S (x2 v) (y2 v).
(** component_wise.cpp 106-109: compMax(vec3) *)
Definition compMax3 (v : vec3 S) : S := max_f S (x3 v) (max_f S (y3 v) (z3 v)).
(** component_wise.cpp 111-114: compMax(vec4) *)
Definition compMax4 (v : vec4 S) : S := max_f S (max_f S (x4 v) (y4 v)) (max_f S (z4 v) (w4 v)).

End ComponentWise.

(** ** int vectors *)

(** component_wise.cpp 26-29: compAdd(ivec2), left to right *)
Definition icompAdd2 (v : vec2 Z) : outcome Z :=
  i32_add (x2 v) (y2 v).
(** component_wise.cpp 31-34: compAdd(ivec3), left to right *)
Definition icompAdd3 (v : vec3 Z) : outcome Z :=
  do a1 <- i32_add (x3 v) (y3 v);
  i32_add (a1) (z3 v).
(** component_wise.cpp 36-39: compAdd(ivec4), left to right *)
Definition icompAdd4 (v : vec4 Z) : outcome Z :=
  do a1 <- i32_add (x4 v) (y4 v);
  do a2 <- i32_add (a1) (z4 v);
  i32_add (a2) (w4 v).
(** component_wise.cpp 56-59: compMul(ivec2), left to right *)
Definition icompMul2 (v : vec2 Z) : outcome Z :=
  i32_mul (x2 v) (y2 v).
(** component_wise.cpp 61-64: compMul(ivec3), left to right *)
Definition icompMul3 (v : vec3 Z) : outcome Z :=
  do a1 <- i32_mul (x3 v) (y3 v);
  i32_mul (a1) (z3 v).
(** component_wise.cpp 66-69: compMul(ivec4), left to right *)
Definition icompMul4 (v : vec4 Z) : outcome Z :=
  do a1 <- i32_mul (x4 v) (y4 v);
  do a2 <- i32_mul (a1) (z4 v);
  i32_mul (a2) (w4 v).
(** component_wise.cpp 86-89: compMin(ivec2) *)
Definition icompMin2 (v : vec2 Z) : Z := min_i (x2 v) (y2 v).
(** component_wise.cpp 91-94: compMin(ivec3) *)
Definition icompMin3 (v : vec3 Z) : Z := min_i (x3 v) (min_i (y3 v) (z3 v)).
(** component_wise.cpp 96-99: compMin(ivec4) *)
Definition icompMin4 (v : vec4 Z) : Z := min_i (min_i (x4 v) (y4 v)) (min_i (z4 v) (w4 v)).
(** component_wise.cpp 116-119: compMax(ivec2) *)
Definition icompMax2 (v : vec2 Z) : Z := max_i (x2 v) (y2 v).
(** component_wise.cpp 121-124: compMax(ivec3) *)
Definition icompMax3 (v : vec3 Z) : Z := max_i (x3 v) (max_i (y3 v) (z3 v)).
(** component_wise.cpp 126-129: compMax(ivec4) *)
Definition icompMax4 (v : vec4 Z) : Z := max_i (max_i (x4 v) (y4 v)) (max_i (z4 v) (w4 v)).
