(** * Component accessors and storage pointers

    include/zcm/detail/vec2_access.hpp, vec3_access.hpp, vec4_access.hpp: an
    accessor [v.x] is a member of a union with the array [_data]; it is the whole
    array together with a fixed index.  An accessor of a vector is therefore
    modelled by the vector itself and the index.  [rd] is the by-value argument as
    read from the object (see [ModelVec]).  [operator=(T)] is usable on float vectors only: in the accessors of
    the integer vectors it is hidden (C103).  [format_as] is treated in C103.

    src/type_ptr.cpp: [value_ptr] yields the address of the first element; the
    static_asserts on the sizes make the elements of a vector consecutive, and the
    columns of a matrix are consecutive in [_columns]. *)
From Coq Require Import ZArith NArith Bool List.
From Verif Require Import Scalar Outcome Types Int32.
Import ListNotations.
Local Open Scope outcome_scope.
Local Open Scope scalar_scope.

Section FloatAccess.
Variable S : Scalar.

(** vec2_access.hpp 45-47: conversion to T *)
Definition acc2_get {A} (index : nat) (v : vec2 A) : A := el2 v index.
(** vec2_access.hpp 29-31: operator=(T) *)
Definition acc2_set {A} (index : nat) (rd : vec2 A -> A) (v : vec2 A) : vec2 A := set2 v index (rd v).
(** vec2_access.hpp 11-14: the implicitly declared copy assignment, chosen for
    [a.x = b.x]; it copies the whole array *)
Definition acc2_copy {A} (other : vec2 A) (v : vec2 A) : vec2 A := other.
(** vec2_access.hpp 16-18 *)
Definition acc2_add_assign (index : nat) (rd : vec2 S -> S) (v : vec2 S) : vec2 S :=
  set2 v index (el2 v index + rd v).
(** vec2_access.hpp 19-21 *)
Definition acc2_sub_assign (index : nat) (rd : vec2 S -> S) (v : vec2 S) : vec2 S :=
  set2 v index (el2 v index - rd v).
(** vec2_access.hpp 22-24 *)
Definition acc2_mul_assign (index : nat) (rd : vec2 S -> S) (v : vec2 S) : vec2 S :=
  set2 v index (el2 v index * rd v).
(** vec2_access.hpp 25-27 *)
Definition acc2_div_assign (index : nat) (rd : vec2 S -> S) (v : vec2 S) : vec2 S :=
  set2 v index (el2 v index / rd v).
(** vec2_access.hpp 32-34 *)
Definition acc2_preinc (index : nat) (v : vec2 S) : vec2 S * S :=
  let a := el2 v index in let v := set2 v index (a + f1) in (v, el2 v index).
(** vec2_access.hpp 35-37 *)
Definition acc2_postinc (index : nat) (v : vec2 S) : vec2 S * S :=
  let a := el2 v index in let v := set2 v index (a + f1) in (v, a).
(** vec2_access.hpp 38-40 *)
Definition acc2_predec (index : nat) (v : vec2 S) : vec2 S * S :=
  let a := el2 v index in let v := set2 v index (a - f1) in (v, el2 v index).
(** vec2_access.hpp 41-43 *)
Definition acc2_postdec (index : nat) (v : vec2 S) : vec2 S * S :=
  let a := el2 v index in let v := set2 v index (a - f1) in (v, a).
(** vec3_access.hpp 45-47: conversion to T *)
Definition acc3_get {A} (index : nat) (v : vec3 A) : A := el3 v index.
(** vec3_access.hpp 30-32: operator=(T) *)
Definition acc3_set {A} (index : nat) (rd : vec3 A -> A) (v : vec3 A) : vec3 A := set3 v index (rd v).
(** vec3_access.hpp 13-16: the implicitly declared copy assignment, chosen for
    [a.x = b.x]; it copies the whole array *)
Definition acc3_copy {A} (other : vec3 A) (v : vec3 A) : vec3 A := other.
(** vec3_access.hpp 18-20 *)
Definition acc3_add_assign (index : nat) (rd : vec3 S -> S) (v : vec3 S) : vec3 S :=
  set3 v index (el3 v index + rd v).
(** vec3_access.hpp 21-23 *)
Definition acc3_sub_assign (index : nat) (rd : vec3 S -> S) (v : vec3 S) : vec3 S :=
  set3 v index (el3 v index - rd v).
(** vec3_access.hpp 24-26 *)
Definition acc3_mul_assign (index : nat) (rd : vec3 S -> S) (v : vec3 S) : vec3 S :=
  set3 v index (el3 v index * rd v).
(** vec3_access.hpp 27-29 *)
Definition acc3_div_assign (index : nat) (rd : vec3 S -> S) (v : vec3 S) : vec3 S :=
  set3 v index (el3 v index / rd v).
(** vec3_access.hpp 33-35 *)
Definition acc3_preinc (index : nat) (v : vec3 S) : vec3 S * S :=
  let a := el3 v index in let v := set3 v index (a + f1) in (v, el3 v index).
(** vec3_access.hpp 36-38 *)
Definition acc3_postinc (index : nat) (v : vec3 S) : vec3 S * S :=
  let a := el3 v index in let v := set3 v index (a + f1) in (v, a).
(** vec3_access.hpp 39-41 *)
Definition acc3_predec (index : nat) (v : vec3 S) : vec3 S * S :=
  let a := el3 v index in let v := set3 v index (a - f1) in (v, el3 v index).
(** vec3_access.hpp 42-44 *)
Definition acc3_postdec (index : nat) (v : vec3 S) : vec3 S * S :=
  let a := el3 v index in let v := set3 v index (a - f1) in (v, a).
(** vec4_access.hpp 47-49: conversion to T *)
Definition acc4_get {A} (index : nat) (v : vec4 A) : A := el4 v index.
(** vec4_access.hpp 32-34: operator=(T) *)
Definition acc4_set {A} (index : nat) (rd : vec4 A -> A) (v : vec4 A) : vec4 A := set4 v index (rd v).
(** vec4_access.hpp 15-18: the implicitly declared copy assignment, chosen for
    [a.x = b.x]; it copies the whole array *)
Definition acc4_copy {A} (other : vec4 A) (v : vec4 A) : vec4 A := other.
(** vec4_access.hpp 20-22 *)
Definition acc4_add_assign (index : nat) (rd : vec4 S -> S) (v : vec4 S) : vec4 S :=
  set4 v index (el4 v index + rd v).
(** vec4_access.hpp 23-25 *)
Definition acc4_sub_assign (index : nat) (rd : vec4 S -> S) (v : vec4 S) : vec4 S :=
  set4 v index (el4 v index - rd v).
(** vec4_access.hpp 26-28 *)
Definition acc4_mul_assign (index : nat) (rd : vec4 S -> S) (v : vec4 S) : vec4 S :=
  set4 v index (el4 v index * rd v).
(** vec4_access.hpp 29-31 *)
Definition acc4_div_assign (index : nat) (rd : vec4 S -> S) (v : vec4 S) : vec4 S :=
  set4 v index (el4 v index / rd v).
(** vec4_access.hpp 35-37 *)
Definition acc4_preinc (index : nat) (v : vec4 S) : vec4 S * S :=
  let a := el4 v index in let v := set4 v index (a + f1) in (v, el4 v index).
(** vec4_access.hpp 38-40 *)
Definition acc4_postinc (index : nat) (v : vec4 S) : vec4 S * S :=
  let a := el4 v index in let v := set4 v index (a + f1) in (v, a).
(** vec4_access.hpp 41-43 *)
Definition acc4_predec (index : nat) (v : vec4 S) : vec4 S * S :=
  let a := el4 v index in let v := set4 v index (a - f1) in (v, el4 v index).
(** vec4_access.hpp 44-46 *)
Definition acc4_postdec (index : nat) (v : vec4 S) : vec4 S * S :=
  let a := el4 v index in let v := set4 v index (a - f1) in (v, a).

End FloatAccess.

(** ** int accessors: scalar_accessor_2i, _3i, _4i *)

(** vec2_access.hpp 16-18 *)
Definition iacc2_add_assign (index : nat) (rd : vec2 Z -> Z) (v : vec2 Z) : outcome (vec2 Z) :=
  do r <- i32_add (el2 v index) (rd v); Ret (set2 v index r).
(** vec2_access.hpp 19-21 *)
Definition iacc2_sub_assign (index : nat) (rd : vec2 Z -> Z) (v : vec2 Z) : outcome (vec2 Z) :=
  do r <- i32_sub (el2 v index) (rd v); Ret (set2 v index r).
(** vec2_access.hpp 22-24 *)
Definition iacc2_mul_assign (index : nat) (rd : vec2 Z -> Z) (v : vec2 Z) : outcome (vec2 Z) :=
  do r <- i32_mul (el2 v index) (rd v); Ret (set2 v index r).
(** vec2_access.hpp 25-27 *)
Definition iacc2_div_assign (index : nat) (rd : vec2 Z -> Z) (v : vec2 Z) : outcome (vec2 Z) :=
  do r <- i32_div (el2 v index) (rd v); Ret (set2 v index r).
(** vec2_access.hpp 61-63 *)
Definition iacc2_rem_assign (index : nat) (rd : vec2 Z -> Z) (v : vec2 Z) : outcome (vec2 Z) :=
  do r <- i32_rem (el2 v index) (rd v); Ret (set2 v index r).
(** vec2_access.hpp 64-66 *)
Definition iacc2_or_assign (index : nat) (rd : vec2 Z -> Z) (v : vec2 Z) : outcome (vec2 Z) :=
  do r <- i32_or (el2 v index) (rd v); Ret (set2 v index r).
(** vec2_access.hpp 67-69 *)
Definition iacc2_and_assign (index : nat) (rd : vec2 Z -> Z) (v : vec2 Z) : outcome (vec2 Z) :=
  do r <- i32_and (el2 v index) (rd v); Ret (set2 v index r).
(** vec2_access.hpp 70-72 *)
Definition iacc2_xor_assign (index : nat) (rd : vec2 Z -> Z) (v : vec2 Z) : outcome (vec2 Z) :=
  do r <- i32_xor (el2 v index) (rd v); Ret (set2 v index r).
(** vec2_access.hpp 73-75 *)
Definition iacc2_shl_assign (index : nat) (rd : vec2 Z -> Z) (v : vec2 Z) : outcome (vec2 Z) :=
  do r <- i32_shl (el2 v index) (rd v); Ret (set2 v index r).
(** vec2_access.hpp 76-78 *)
Definition iacc2_shr_assign (index : nat) (rd : vec2 Z -> Z) (v : vec2 Z) : outcome (vec2 Z) :=
  do r <- i32_shr (el2 v index) (rd v); Ret (set2 v index r).
(** vec2_access.hpp 32-34 *)
Definition iacc2_preinc (index : nat) (v : vec2 Z) : outcome (vec2 Z * Z) :=
  let a := el2 v index in do r <- i32_add a 1%Z; let v := set2 v index r in Ret (v, el2 v index).
(** vec2_access.hpp 35-37 *)
Definition iacc2_postinc (index : nat) (v : vec2 Z) : outcome (vec2 Z * Z) :=
  let a := el2 v index in do r <- i32_add a 1%Z; let v := set2 v index r in Ret (v, a).
(** vec2_access.hpp 38-40 *)
Definition iacc2_predec (index : nat) (v : vec2 Z) : outcome (vec2 Z * Z) :=
  let a := el2 v index in do r <- i32_sub a 1%Z; let v := set2 v index r in Ret (v, el2 v index).
(** vec2_access.hpp 41-43 *)
Definition iacc2_postdec (index : nat) (v : vec2 Z) : outcome (vec2 Z * Z) :=
  let a := el2 v index in do r <- i32_sub a 1%Z; let v := set2 v index r in Ret (v, a).
(** vec3_access.hpp 18-20 *)
Definition iacc3_add_assign (index : nat) (rd : vec3 Z -> Z) (v : vec3 Z) : outcome (vec3 Z) :=
  do r <- i32_add (el3 v index) (rd v); Ret (set3 v index r).
(** vec3_access.hpp 21-23 *)
Definition iacc3_sub_assign (index : nat) (rd : vec3 Z -> Z) (v : vec3 Z) : outcome (vec3 Z) :=
  do r <- i32_sub (el3 v index) (rd v); Ret (set3 v index r).
(** vec3_access.hpp 24-26 *)
Definition iacc3_mul_assign (index : nat) (rd : vec3 Z -> Z) (v : vec3 Z) : outcome (vec3 Z) :=
  do r <- i32_mul (el3 v index) (rd v); Ret (set3 v index r).
(** vec3_access.hpp 27-29 *)
Definition iacc3_div_assign (index : nat) (rd : vec3 Z -> Z) (v : vec3 Z) : outcome (vec3 Z) :=
  do r <- i32_div (el3 v index) (rd v); Ret (set3 v index r).
(** vec3_access.hpp 61-63 *)
Definition iacc3_rem_assign (index : nat) (rd : vec3 Z -> Z) (v : vec3 Z) : outcome (vec3 Z) :=
  do r <- i32_rem (el3 v index) (rd v); Ret (set3 v index r).
(** vec3_access.hpp 64-66 *)
Definition iacc3_or_assign (index : nat) (rd : vec3 Z -> Z) (v : vec3 Z) : outcome (vec3 Z) :=
  do r <- i32_or (el3 v index) (rd v); Ret (set3 v index r).
(** vec3_access.hpp 67-69 *)
Definition iacc3_and_assign (index : nat) (rd : vec3 Z -> Z) (v : vec3 Z) : outcome (vec3 Z) :=
  do r <- i32_and (el3 v index) (rd v); Ret (set3 v index r).
(** vec3_access.hpp 70-72 *)
Definition iacc3_xor_assign (index : nat) (rd : vec3 Z -> Z) (v : vec3 Z) : outcome (vec3 Z) :=
  do r <- i32_xor (el3 v index) (rd v); Ret (set3 v index r).
(** vec3_access.hpp 73-75 *)
Definition iacc3_shl_assign (index : nat) (rd : vec3 Z -> Z) (v : vec3 Z) : outcome (vec3 Z) :=
  do r <- i32_shl (el3 v index) (rd v); Ret (set3 v index r).
(** vec3_access.hpp 76-78 *)
Definition iacc3_shr_assign (index : nat) (rd : vec3 Z -> Z) (v : vec3 Z) : outcome (vec3 Z) :=
  do r <- i32_shr (el3 v index) (rd v); Ret (set3 v index r).
(** vec3_access.hpp 33-35 *)
Definition iacc3_preinc (index : nat) (v : vec3 Z) : outcome (vec3 Z * Z) :=
  let a := el3 v index in do r <- i32_add a 1%Z; let v := set3 v index r in Ret (v, el3 v index).
(** vec3_access.hpp 36-38 *)
Definition iacc3_postinc (index : nat) (v : vec3 Z) : outcome (vec3 Z * Z) :=
  let a := el3 v index in do r <- i32_add a 1%Z; let v := set3 v index r in Ret (v, a).
(** vec3_access.hpp 39-41 *)
Definition iacc3_predec (index : nat) (v : vec3 Z) : outcome (vec3 Z * Z) :=
  let a := el3 v index in do r <- i32_sub a 1%Z; let v := set3 v index r in Ret (v, el3 v index).
(** vec3_access.hpp 42-44 *)
Definition iacc3_postdec (index : nat) (v : vec3 Z) : outcome (vec3 Z * Z) :=
  let a := el3 v index in do r <- i32_sub a 1%Z; let v := set3 v index r in Ret (v, a).
(** vec4_access.hpp 20-22 *)
Definition iacc4_add_assign (index : nat) (rd : vec4 Z -> Z) (v : vec4 Z) : outcome (vec4 Z) :=
  do r <- i32_add (el4 v index) (rd v); Ret (set4 v index r).
(** vec4_access.hpp 23-25 *)
Definition iacc4_sub_assign (index : nat) (rd : vec4 Z -> Z) (v : vec4 Z) : outcome (vec4 Z) :=
  do r <- i32_sub (el4 v index) (rd v); Ret (set4 v index r).
(** vec4_access.hpp 26-28 *)
Definition iacc4_mul_assign (index : nat) (rd : vec4 Z -> Z) (v : vec4 Z) : outcome (vec4 Z) :=
  do r <- i32_mul (el4 v index) (rd v); Ret (set4 v index r).
(** vec4_access.hpp 29-31 *)
Definition iacc4_div_assign (index : nat) (rd : vec4 Z -> Z) (v : vec4 Z) : outcome (vec4 Z) :=
  do r <- i32_div (el4 v index) (rd v); Ret (set4 v index r).
(** vec4_access.hpp 62-64 *)
Definition iacc4_rem_assign (index : nat) (rd : vec4 Z -> Z) (v : vec4 Z) : outcome (vec4 Z) :=
  do r <- i32_rem (el4 v index) (rd v); Ret (set4 v index r).
(** vec4_access.hpp 65-67 *)
Definition iacc4_or_assign (index : nat) (rd : vec4 Z -> Z) (v : vec4 Z) : outcome (vec4 Z) :=
  do r <- i32_or (el4 v index) (rd v); Ret (set4 v index r).
(** vec4_access.hpp 68-70 *)
Definition iacc4_and_assign (index : nat) (rd : vec4 Z -> Z) (v : vec4 Z) : outcome (vec4 Z) :=
  do r <- i32_and (el4 v index) (rd v); Ret (set4 v index r).
(** vec4_access.hpp 71-73 *)
Definition iacc4_xor_assign (index : nat) (rd : vec4 Z -> Z) (v : vec4 Z) : outcome (vec4 Z) :=
  do r <- i32_xor (el4 v index) (rd v); Ret (set4 v index r).
(** vec4_access.hpp 74-76 *)
Definition iacc4_shl_assign (index : nat) (rd : vec4 Z -> Z) (v : vec4 Z) : outcome (vec4 Z) :=
  do r <- i32_shl (el4 v index) (rd v); Ret (set4 v index r).
(** vec4_access.hpp 77-79 *)
Definition iacc4_shr_assign (index : nat) (rd : vec4 Z -> Z) (v : vec4 Z) : outcome (vec4 Z) :=
  do r <- i32_shr (el4 v index) (rd v); Ret (set4 v index r).
(** vec4_access.hpp 35-37 *)
Definition iacc4_preinc (index : nat) (v : vec4 Z) : outcome (vec4 Z * Z) :=
  let a := el4 v index in do r <- i32_add a 1%Z; let v := set4 v index r in Ret (v, el4 v index).
(** vec4_access.hpp 38-40 *)
Definition iacc4_postinc (index : nat) (v : vec4 Z) : outcome (vec4 Z * Z) :=
  let a := el4 v index in do r <- i32_add a 1%Z; let v := set4 v index r in Ret (v, a).
(** vec4_access.hpp 41-43 *)
Definition iacc4_predec (index : nat) (v : vec4 Z) : outcome (vec4 Z * Z) :=
  let a := el4 v index in do r <- i32_sub a 1%Z; let v := set4 v index r in Ret (v, el4 v index).
(** vec4_access.hpp 44-46 *)
Definition iacc4_postdec (index : nat) (v : vec4 Z) : outcome (vec4 Z * Z) :=
  let a := el4 v index in do r <- i32_sub a 1%Z; let v := set4 v index r in Ret (v, a).

(** ** src/type_ptr.cpp *)

(** type_ptr.cpp 29-32, 82-85 (vec2), 14-17, 67-70 (bvec2) *)
Definition value_ptr_vec2 {A} (val : vec2 A) : option (list A) := Some [x2 val; y2 val].
(** type_ptr.cpp 34-37, 87-90 (vec3), 19-22, 72-75 (bvec3) *)
Definition value_ptr_vec3 {A} (val : vec3 A) : option (list A) := Some [x3 val; y3 val; z3 val].
(** type_ptr.cpp 39-42, 92-95 (vec4), 24-27, 77-80 (bvec4) *)
Definition value_ptr_vec4 {A} (val : vec4 A) : option (list A) := Some [x4 val; y4 val; z4 val; w4 val].
(** type_ptr.cpp 44-47, 97-100 *)
Definition value_ptr_quat {A} (val : quat A) : option (list A) := Some [qx val; qy val; qz val; qw val].
(** type_ptr.cpp 49-52, 102-105 *)
Definition value_ptr_mat2 {A} (val : mat2 A) : option (list A) :=
  Some [at2 val 0 0; at2 val 0 1; at2 val 1 0; at2 val 1 1].
(** type_ptr.cpp 54-57, 107-110 *)
Definition value_ptr_mat3 {A} (val : mat3 A) : option (list A) :=
  Some [at3 val 0 0; at3 val 0 1; at3 val 0 2; at3 val 1 0; at3 val 1 1; at3 val 1 2; at3 val 2 0; at3 val 2 1; at3 val 2 2].
(** type_ptr.cpp 59-62, 112-115 *)
Definition value_ptr_mat4 {A} (val : mat4 A) : option (list A) :=
  Some [at4 val 0 0; at4 val 0 1; at4 val 0 2; at4 val 0 3; at4 val 1 0; at4 val 1 1; at4 val 1 2; at4 val 1 3; at4 val 2 0; at4 val 2 1; at4 val 2 2; at4 val 2 3; at4 val 3 0; at4 val 3 1; at4 val 3 2; at4 val 3 3].
