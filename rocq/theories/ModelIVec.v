(** * Integer vectors: src/ivec2.cpp, src/ivec3.cpp, src/ivec4.cpp

    As [ModelVec], with the operator macros of
    include/zcm/detail/impl_op_macro.hpp read over operations that may be
    undefined.  Braced initialisers are evaluated left to right. *)
From Coq Require Import ZArith NArith Bool List.
From Verif Require Import Outcome Types Int32.
Local Open Scope outcome_scope.
Local Open Scope Z_scope.

(** ** impl_op_macro.hpp over int operations *)

(** impl_op_macro.hpp 36-37: ZCM_IMPL_V2_V2_BINOP *)
Definition IMPL_IV2_IV2_BINOP (op : Z -> Z -> outcome Z) (first second : vec2 Z) : outcome (vec2 Z) :=
  do x <- op (x2 first) (x2 second);
  do y <- op (y2 first) (y2 second);
  Ret (V2 x y).
(** impl_op_macro.hpp 39-40: ZCM_IMPL_V2_SC_BINOP *)
Definition IMPL_IV2_SC_BINOP (op : Z -> Z -> outcome Z) (vec : vec2 Z) (scalar : Z) : outcome (vec2 Z) :=
  do x <- op (x2 vec) scalar;
  do y <- op (y2 vec) scalar;
  Ret (V2 x y).
(** impl_op_macro.hpp 42-43: ZCM_IMPL_SC_V2_BINOP *)
Definition IMPL_SC_IV2_BINOP (op : Z -> Z -> outcome Z) (scalar : Z) (vec : vec2 Z) : outcome (vec2 Z) :=
  do x <- op scalar (x2 vec);
  do y <- op scalar (y2 vec);
  Ret (V2 x y).
(** impl_op_macro.hpp 45-46: ZCM_IMPL_V2_COMPOUND_VEC_OP, by-value operand *)
Definition IMPL_IV2_COMPOUND_VEC_OP (op : Z -> Z -> outcome Z) (rd : vec2 Z -> vec2 Z)
    (self : vec2 Z) : outcome (vec2 Z) :=
  let other := rd self in
  do e0 <- op (x2 self) (x2 other);
  let self := set2 self 0 e0 in
  do e1 <- op (y2 self) (y2 other);
  let self := set2 self 1 e1 in
  Ret self.
(** impl_op_macro.hpp 48-49: ZCM_IMPL_V2_COMPOUND_SC_OP, by-value operand *)
Definition IMPL_IV2_COMPOUND_SC_OP (op : Z -> Z -> outcome Z) (rd : vec2 Z -> Z)
    (self : vec2 Z) : outcome (vec2 Z) :=
  let scalar := rd self in
  do e0 <- op (x2 self) scalar;
  let self := set2 self 0 e0 in
  do e1 <- op (y2 self) scalar;
  let self := set2 self 1 e1 in
  Ret self.

(** impl_op_macro.hpp 53-54: ZCM_IMPL_V3_V3_BINOP *)
Definition IMPL_IV3_IV3_BINOP (op : Z -> Z -> outcome Z) (first second : vec3 Z) : outcome (vec3 Z) :=
  do x <- op (x3 first) (x3 second);
  do y <- op (y3 first) (y3 second);
  do z <- op (z3 first) (z3 second);
  Ret (V3 x y z).
(** impl_op_macro.hpp 56-57: ZCM_IMPL_V3_SC_BINOP *)
Definition IMPL_IV3_SC_BINOP (op : Z -> Z -> outcome Z) (vec : vec3 Z) (scalar : Z) : outcome (vec3 Z) :=
  do x <- op (x3 vec) scalar;
  do y <- op (y3 vec) scalar;
  do z <- op (z3 vec) scalar;
  Ret (V3 x y z).
(** impl_op_macro.hpp 59-60: ZCM_IMPL_SC_V3_BINOP *)
Definition IMPL_SC_IV3_BINOP (op : Z -> Z -> outcome Z) (scalar : Z) (vec : vec3 Z) : outcome (vec3 Z) :=
  do x <- op scalar (x3 vec);
  do y <- op scalar (y3 vec);
  do z <- op scalar (z3 vec);
  Ret (V3 x y z).
(** impl_op_macro.hpp 62-63: ZCM_IMPL_V3_COMPOUND_VEC_OP, by-value operand *)
Definition IMPL_IV3_COMPOUND_VEC_OP (op : Z -> Z -> outcome Z) (rd : vec3 Z -> vec3 Z)
    (self : vec3 Z) : outcome (vec3 Z) :=
  let other := rd self in
  do e0 <- op (x3 self) (x3 other);
  let self := set3 self 0 e0 in
  do e1 <- op (y3 self) (y3 other);
  let self := set3 self 1 e1 in
  do e2 <- op (z3 self) (z3 other);
  let self := set3 self 2 e2 in
  Ret self.
(** impl_op_macro.hpp 65-66: ZCM_IMPL_V3_COMPOUND_SC_OP, by-value operand *)
Definition IMPL_IV3_COMPOUND_SC_OP (op : Z -> Z -> outcome Z) (rd : vec3 Z -> Z)
    (self : vec3 Z) : outcome (vec3 Z) :=
  let scalar := rd self in
  do e0 <- op (x3 self) scalar;
  let self := set3 self 0 e0 in
  do e1 <- op (y3 self) scalar;
  let self := set3 self 1 e1 in
  do e2 <- op (z3 self) scalar;
  let self := set3 self 2 e2 in
  Ret self.

(** impl_op_macro.hpp 70-71: ZCM_IMPL_V4_V4_BINOP *)
Definition IMPL_IV4_IV4_BINOP (op : Z -> Z -> outcome Z) (first second : vec4 Z) : outcome (vec4 Z) :=
  do x <- op (x4 first) (x4 second);
  do y <- op (y4 first) (y4 second);
  do z <- op (z4 first) (z4 second);
  do w <- op (w4 first) (w4 second);
  Ret (V4 x y z w).
(** impl_op_macro.hpp 73-74: ZCM_IMPL_V4_SC_BINOP *)
Definition IMPL_IV4_SC_BINOP (op : Z -> Z -> outcome Z) (vec : vec4 Z) (scalar : Z) : outcome (vec4 Z) :=
  do x <- op (x4 vec) scalar;
  do y <- op (y4 vec) scalar;
  do z <- op (z4 vec) scalar;
  do w <- op (w4 vec) scalar;
  Ret (V4 x y z w).
(** impl_op_macro.hpp 76-77: ZCM_IMPL_SC_V4_BINOP *)
Definition IMPL_SC_IV4_BINOP (op : Z -> Z -> outcome Z) (scalar : Z) (vec : vec4 Z) : outcome (vec4 Z) :=
  do x <- op scalar (x4 vec);
  do y <- op scalar (y4 vec);
  do z <- op scalar (z4 vec);
  do w <- op scalar (w4 vec);
  Ret (V4 x y z w).
(** impl_op_macro.hpp 79-80: ZCM_IMPL_V4_COMPOUND_VEC_OP, by-value operand *)
Definition IMPL_IV4_COMPOUND_VEC_OP (op : Z -> Z -> outcome Z) (rd : vec4 Z -> vec4 Z)
    (self : vec4 Z) : outcome (vec4 Z) :=
  let other := rd self in
  do e0 <- op (x4 self) (x4 other);
  let self := set4 self 0 e0 in
  do e1 <- op (y4 self) (y4 other);
  let self := set4 self 1 e1 in
  do e2 <- op (z4 self) (z4 other);
  let self := set4 self 2 e2 in
  do e3 <- op (w4 self) (w4 other);
  let self := set4 self 3 e3 in
  Ret self.
(** impl_op_macro.hpp 82-83: ZCM_IMPL_V4_COMPOUND_SC_OP, by-value operand *)
Definition IMPL_IV4_COMPOUND_SC_OP (op : Z -> Z -> outcome Z) (rd : vec4 Z -> Z)
    (self : vec4 Z) : outcome (vec4 Z) :=
  let scalar := rd self in
  do e0 <- op (x4 self) scalar;
  let self := set4 self 0 e0 in
  do e1 <- op (y4 self) scalar;
  let self := set4 self 1 e1 in
  do e2 <- op (z4 self) scalar;
  let self := set4 self 2 e2 in
  do e3 <- op (w4 self) scalar;
  let self := set4 self 3 e3 in
  Ret self.

(** ** ivec2 *)

(** src/ivec2.cpp 17-21: constructor *)
Definition ivec2_i (value : Z) : vec2 Z := V2 value value.
(** src/ivec2.cpp 10-12: default constructor *)
Definition ivec2_default : vec2 Z := ivec2_i 0.
(** src/ivec2.cpp 23-27: constructor *)
Definition ivec2_xy (x y : Z) : vec2 Z := V2 x y.
(** src/ivec2.cpp 41-45: make_ivec2 *)
Definition make_ivec2 (b : build) (ptr : option (list Z)) : outcome (vec2 Z) :=
  do u <- assert_ptr b ptr;
  do x <- deref ptr 0;
  do y <- deref ptr 1;
  Ret (ivec2_xy x y).
(** src/ivec2.cpp 48: operator + *)
Definition ivec2_add : vec2 Z -> vec2 Z -> outcome (vec2 Z) := IMPL_IV2_IV2_BINOP i32_add.
Definition ivec2_add_sc : vec2 Z -> Z -> outcome (vec2 Z) := IMPL_IV2_SC_BINOP i32_add.
Definition sc_add_ivec2 : Z -> vec2 Z -> outcome (vec2 Z) := IMPL_SC_IV2_BINOP i32_add.
(** src/ivec2.cpp 49: operator - *)
Definition ivec2_sub : vec2 Z -> vec2 Z -> outcome (vec2 Z) := IMPL_IV2_IV2_BINOP i32_sub.
Definition ivec2_sub_sc : vec2 Z -> Z -> outcome (vec2 Z) := IMPL_IV2_SC_BINOP i32_sub.
Definition sc_sub_ivec2 : Z -> vec2 Z -> outcome (vec2 Z) := IMPL_SC_IV2_BINOP i32_sub.
(** src/ivec2.cpp 50: operator * *)
Definition ivec2_mul : vec2 Z -> vec2 Z -> outcome (vec2 Z) := IMPL_IV2_IV2_BINOP i32_mul.
Definition ivec2_mul_sc : vec2 Z -> Z -> outcome (vec2 Z) := IMPL_IV2_SC_BINOP i32_mul.
Definition sc_mul_ivec2 : Z -> vec2 Z -> outcome (vec2 Z) := IMPL_SC_IV2_BINOP i32_mul.
(** src/ivec2.cpp 51: operator / *)
Definition ivec2_div : vec2 Z -> vec2 Z -> outcome (vec2 Z) := IMPL_IV2_IV2_BINOP i32_div.
Definition ivec2_div_sc : vec2 Z -> Z -> outcome (vec2 Z) := IMPL_IV2_SC_BINOP i32_div.
Definition sc_div_ivec2 : Z -> vec2 Z -> outcome (vec2 Z) := IMPL_SC_IV2_BINOP i32_div.
(** src/ivec2.cpp 52: operator % *)
Definition ivec2_rem : vec2 Z -> vec2 Z -> outcome (vec2 Z) := IMPL_IV2_IV2_BINOP i32_rem.
Definition ivec2_rem_sc : vec2 Z -> Z -> outcome (vec2 Z) := IMPL_IV2_SC_BINOP i32_rem.
Definition sc_rem_ivec2 : Z -> vec2 Z -> outcome (vec2 Z) := IMPL_SC_IV2_BINOP i32_rem.
(** src/ivec2.cpp 53: operator | *)
Definition ivec2_or : vec2 Z -> vec2 Z -> outcome (vec2 Z) := IMPL_IV2_IV2_BINOP i32_or.
Definition ivec2_or_sc : vec2 Z -> Z -> outcome (vec2 Z) := IMPL_IV2_SC_BINOP i32_or.
Definition sc_or_ivec2 : Z -> vec2 Z -> outcome (vec2 Z) := IMPL_SC_IV2_BINOP i32_or.
(** src/ivec2.cpp 54: operator & *)
Definition ivec2_and : vec2 Z -> vec2 Z -> outcome (vec2 Z) := IMPL_IV2_IV2_BINOP i32_and.
Definition ivec2_and_sc : vec2 Z -> Z -> outcome (vec2 Z) := IMPL_IV2_SC_BINOP i32_and.
Definition sc_and_ivec2 : Z -> vec2 Z -> outcome (vec2 Z) := IMPL_SC_IV2_BINOP i32_and.
(** src/ivec2.cpp 55: operator ^ *)
Definition ivec2_xor : vec2 Z -> vec2 Z -> outcome (vec2 Z) := IMPL_IV2_IV2_BINOP i32_xor.
Definition ivec2_xor_sc : vec2 Z -> Z -> outcome (vec2 Z) := IMPL_IV2_SC_BINOP i32_xor.
Definition sc_xor_ivec2 : Z -> vec2 Z -> outcome (vec2 Z) := IMPL_SC_IV2_BINOP i32_xor.
(** src/ivec2.cpp 56: operator >> *)
Definition ivec2_shr : vec2 Z -> vec2 Z -> outcome (vec2 Z) := IMPL_IV2_IV2_BINOP i32_shr.
Definition ivec2_shr_sc : vec2 Z -> Z -> outcome (vec2 Z) := IMPL_IV2_SC_BINOP i32_shr.
Definition sc_shr_ivec2 : Z -> vec2 Z -> outcome (vec2 Z) := IMPL_SC_IV2_BINOP i32_shr.
(** src/ivec2.cpp 57: operator << *)
Definition ivec2_shl : vec2 Z -> vec2 Z -> outcome (vec2 Z) := IMPL_IV2_IV2_BINOP i32_shl.
Definition ivec2_shl_sc : vec2 Z -> Z -> outcome (vec2 Z) := IMPL_IV2_SC_BINOP i32_shl.
Definition sc_shl_ivec2 : Z -> vec2 Z -> outcome (vec2 Z) := IMPL_SC_IV2_BINOP i32_shl.
(** src/ivec2.cpp 60: operator += *)
Definition ivec2_add_assign : (vec2 Z -> vec2 Z) -> vec2 Z -> outcome (vec2 Z) := IMPL_IV2_COMPOUND_VEC_OP i32_add.
Definition ivec2_add_assign_sc : (vec2 Z -> Z) -> vec2 Z -> outcome (vec2 Z) := IMPL_IV2_COMPOUND_SC_OP i32_add.
(** src/ivec2.cpp 61: operator -= *)
Definition ivec2_sub_assign : (vec2 Z -> vec2 Z) -> vec2 Z -> outcome (vec2 Z) := IMPL_IV2_COMPOUND_VEC_OP i32_sub.
Definition ivec2_sub_assign_sc : (vec2 Z -> Z) -> vec2 Z -> outcome (vec2 Z) := IMPL_IV2_COMPOUND_SC_OP i32_sub.
(** src/ivec2.cpp 62: operator *= *)
Definition ivec2_mul_assign : (vec2 Z -> vec2 Z) -> vec2 Z -> outcome (vec2 Z) := IMPL_IV2_COMPOUND_VEC_OP i32_mul.
Definition ivec2_mul_assign_sc : (vec2 Z -> Z) -> vec2 Z -> outcome (vec2 Z) := IMPL_IV2_COMPOUND_SC_OP i32_mul.
(** src/ivec2.cpp 63: operator /= *)
Definition ivec2_div_assign : (vec2 Z -> vec2 Z) -> vec2 Z -> outcome (vec2 Z) := IMPL_IV2_COMPOUND_VEC_OP i32_div.
Definition ivec2_div_assign_sc : (vec2 Z -> Z) -> vec2 Z -> outcome (vec2 Z) := IMPL_IV2_COMPOUND_SC_OP i32_div.
(** src/ivec2.cpp 64: operator %= *)
Definition ivec2_rem_assign : (vec2 Z -> vec2 Z) -> vec2 Z -> outcome (vec2 Z) := IMPL_IV2_COMPOUND_VEC_OP i32_rem.
Definition ivec2_rem_assign_sc : (vec2 Z -> Z) -> vec2 Z -> outcome (vec2 Z) := IMPL_IV2_COMPOUND_SC_OP i32_rem.
(** src/ivec2.cpp 65: operator |= *)
Definition ivec2_or_assign : (vec2 Z -> vec2 Z) -> vec2 Z -> outcome (vec2 Z) := IMPL_IV2_COMPOUND_VEC_OP i32_or.
Definition ivec2_or_assign_sc : (vec2 Z -> Z) -> vec2 Z -> outcome (vec2 Z) := IMPL_IV2_COMPOUND_SC_OP i32_or.
(** src/ivec2.cpp 66: operator &= *)
Definition ivec2_and_assign : (vec2 Z -> vec2 Z) -> vec2 Z -> outcome (vec2 Z) := IMPL_IV2_COMPOUND_VEC_OP i32_and.
Definition ivec2_and_assign_sc : (vec2 Z -> Z) -> vec2 Z -> outcome (vec2 Z) := IMPL_IV2_COMPOUND_SC_OP i32_and.
(** src/ivec2.cpp 67: operator ^= *)
Definition ivec2_xor_assign : (vec2 Z -> vec2 Z) -> vec2 Z -> outcome (vec2 Z) := IMPL_IV2_COMPOUND_VEC_OP i32_xor.
Definition ivec2_xor_assign_sc : (vec2 Z -> Z) -> vec2 Z -> outcome (vec2 Z) := IMPL_IV2_COMPOUND_SC_OP i32_xor.
(** src/ivec2.cpp 68: operator >>= *)
Definition ivec2_shr_assign : (vec2 Z -> vec2 Z) -> vec2 Z -> outcome (vec2 Z) := IMPL_IV2_COMPOUND_VEC_OP i32_shr.
Definition ivec2_shr_assign_sc : (vec2 Z -> Z) -> vec2 Z -> outcome (vec2 Z) := IMPL_IV2_COMPOUND_SC_OP i32_shr.
(** src/ivec2.cpp 69: operator <<= *)
Definition ivec2_shl_assign : (vec2 Z -> vec2 Z) -> vec2 Z -> outcome (vec2 Z) := IMPL_IV2_COMPOUND_VEC_OP i32_shl.
Definition ivec2_shl_assign_sc : (vec2 Z -> Z) -> vec2 Z -> outcome (vec2 Z) := IMPL_IV2_COMPOUND_SC_OP i32_shl.
(** src/ivec2.cpp 29-33: unary + *)
Definition ivec2_pos (first : vec2 Z) : vec2 Z := V2 (x2 first) (y2 first).
(** src/ivec2.cpp 35-39: unary - *)
Definition ivec2_neg (first : vec2 Z) : outcome (vec2 Z) :=
  do x <- i32_neg (x2 first);
  do y <- i32_neg (y2 first);
  Ret (V2 x y).
(** src/ivec2.cpp 123-128: prefix ++; returns (new object, result) *)
Definition ivec2_preinc (self : vec2 Z) : outcome (vec2 Z * vec2 Z) :=
  do e0 <- i32_add (x2 self) 1;
  let self := set2 self 0 e0 in
  do e1 <- i32_add (y2 self) 1;
  let self := set2 self 1 e1 in
  Ret (self, self).
(** src/ivec2.cpp 130-136: postfix ++; returns (new object, result) *)
Definition ivec2_postinc (self : vec2 Z) : outcome (vec2 Z * vec2 Z) :=
  let tmp := self in
  do e0 <- i32_add (x2 self) 1;
  let self := set2 self 0 e0 in
  do e1 <- i32_add (y2 self) 1;
  let self := set2 self 1 e1 in
  Ret (self, tmp).
(** src/ivec2.cpp 138-143: prefix --; returns (new object, result) *)
Definition ivec2_predec (self : vec2 Z) : outcome (vec2 Z * vec2 Z) :=
  do e0 <- i32_sub (x2 self) 1;
  let self := set2 self 0 e0 in
  do e1 <- i32_sub (y2 self) 1;
  let self := set2 self 1 e1 in
  Ret (self, self).
(** src/ivec2.cpp 145-151: postfix --; returns (new object, result) *)
Definition ivec2_postdec (self : vec2 Z) : outcome (vec2 Z * vec2 Z) :=
  let tmp := self in
  do e0 <- i32_sub (x2 self) 1;
  let self := set2 self 0 e0 in
  do e1 <- i32_sub (y2 self) 1;
  let self := set2 self 1 e1 in
  Ret (self, tmp).
(** src/ivec2.cpp 72-75: operator == *)
Definition ivec2_eq (first second : vec2 Z) : bool :=
  (x2 first =? x2 second) && (y2 first =? y2 second).
(** src/ivec2.cpp 77-80: operator != *)
Definition ivec2_ne (first second : vec2 Z) : bool := negb (ivec2_eq first second).
(** src/ivec2.cpp 82-88: operator < *)
Definition ivec2_lt (first second : vec2 Z) : bool :=
  if x2 first <? x2 second then true else
  if x2 first >? x2 second then false else
  if y2 first <? y2 second then true else
  false.
(** src/ivec2.cpp 90-93: operator <= *)
Definition ivec2_le (first second : vec2 Z) : bool := negb (ivec2_lt second first).
(** src/ivec2.cpp 96-99: operator > *)
Definition ivec2_gt (first second : vec2 Z) : bool := ivec2_lt second first.
(** src/ivec2.cpp 101-104: operator >= *)
Definition ivec2_ge (first second : vec2 Z) : bool := negb (ivec2_lt first second).
(** src/ivec2.cpp 106-116: operator[] *)
Definition ivec2_index (b : build) (self : vec2 Z) (val : N) : outcome Z :=
  do u <- cassert b (N.ltb val 3);
  if N.eqb val 0 then Ret (x2 self) else
  if N.eqb val 1 then Ret (y2 self) else
  Undefined.
(** src/ivec2.cpp 106-116: operator[] as an lvalue, [v[val] = a] *)
Definition ivec2_index_set (b : build) (self : vec2 Z) (val : N) (a : Z) : outcome (vec2 Z) :=
  do u <- cassert b (N.ltb val 3);
  if N.eqb val 0 then Ret (set2 self 0 a) else
  if N.eqb val 1 then Ret (set2 self 1 a) else
  Undefined.
(** src/ivec2.cpp 118-121: conversion to bvec2; [bool(i)] is [i != 0] *)
Definition ivec2_to_bvec2 (self : vec2 Z) : vec2 bool :=
  V2 (negb (x2 self =? 0)) (negb (y2 self =? 0)).

(** ** ivec3 *)

(** src/ivec3.cpp 18-23: constructor *)
Definition ivec3_i (value : Z) : vec3 Z := V3 value value value.
(** src/ivec3.cpp 11-13: default constructor *)
Definition ivec3_default : vec3 Z := ivec3_i 0.
(** src/ivec3.cpp 25-30: constructor *)
Definition ivec3_xyz (x y z : Z) : vec3 Z := V3 x y z.
(** src/ivec3.cpp 32-37: constructor *)
Definition ivec3_v2i (xy : vec2 Z) (z : Z) : vec3 Z := V3 (x2 xy) (y2 xy) z.
(** src/ivec3.cpp 39-44: constructor *)
Definition ivec3_iv2 (x : Z) (yz : vec2 Z) : vec3 Z := V3 x (x2 yz) (y2 yz).
(** src/ivec3.cpp 46-50: make_ivec3 *)
Definition make_ivec3 (b : build) (ptr : option (list Z)) : outcome (vec3 Z) :=
  do u <- assert_ptr b ptr;
  do x <- deref ptr 0;
  do y <- deref ptr 1;
  do z <- deref ptr 2;
  Ret (ivec3_xyz x y z).
(** src/ivec3.cpp 54: operator + *)
Definition ivec3_add : vec3 Z -> vec3 Z -> outcome (vec3 Z) := IMPL_IV3_IV3_BINOP i32_add.
Definition ivec3_add_sc : vec3 Z -> Z -> outcome (vec3 Z) := IMPL_IV3_SC_BINOP i32_add.
Definition sc_add_ivec3 : Z -> vec3 Z -> outcome (vec3 Z) := IMPL_SC_IV3_BINOP i32_add.
(** src/ivec3.cpp 55: operator - *)
Definition ivec3_sub : vec3 Z -> vec3 Z -> outcome (vec3 Z) := IMPL_IV3_IV3_BINOP i32_sub.
Definition ivec3_sub_sc : vec3 Z -> Z -> outcome (vec3 Z) := IMPL_IV3_SC_BINOP i32_sub.
Definition sc_sub_ivec3 : Z -> vec3 Z -> outcome (vec3 Z) := IMPL_SC_IV3_BINOP i32_sub.
(** src/ivec3.cpp 56: operator * *)
Definition ivec3_mul : vec3 Z -> vec3 Z -> outcome (vec3 Z) := IMPL_IV3_IV3_BINOP i32_mul.
Definition ivec3_mul_sc : vec3 Z -> Z -> outcome (vec3 Z) := IMPL_IV3_SC_BINOP i32_mul.
Definition sc_mul_ivec3 : Z -> vec3 Z -> outcome (vec3 Z) := IMPL_SC_IV3_BINOP i32_mul.
(** src/ivec3.cpp 57: operator / *)
Definition ivec3_div : vec3 Z -> vec3 Z -> outcome (vec3 Z) := IMPL_IV3_IV3_BINOP i32_div.
Definition ivec3_div_sc : vec3 Z -> Z -> outcome (vec3 Z) := IMPL_IV3_SC_BINOP i32_div.
Definition sc_div_ivec3 : Z -> vec3 Z -> outcome (vec3 Z) := IMPL_SC_IV3_BINOP i32_div.
(** src/ivec3.cpp 58: operator % *)
Definition ivec3_rem : vec3 Z -> vec3 Z -> outcome (vec3 Z) := IMPL_IV3_IV3_BINOP i32_rem.
Definition ivec3_rem_sc : vec3 Z -> Z -> outcome (vec3 Z) := IMPL_IV3_SC_BINOP i32_rem.
Definition sc_rem_ivec3 : Z -> vec3 Z -> outcome (vec3 Z) := IMPL_SC_IV3_BINOP i32_rem.
(** src/ivec3.cpp 59: operator | *)
Definition ivec3_or : vec3 Z -> vec3 Z -> outcome (vec3 Z) := IMPL_IV3_IV3_BINOP i32_or.
Definition ivec3_or_sc : vec3 Z -> Z -> outcome (vec3 Z) := IMPL_IV3_SC_BINOP i32_or.
Definition sc_or_ivec3 : Z -> vec3 Z -> outcome (vec3 Z) := IMPL_SC_IV3_BINOP i32_or.
(** src/ivec3.cpp 60: operator & *)
Definition ivec3_and : vec3 Z -> vec3 Z -> outcome (vec3 Z) := IMPL_IV3_IV3_BINOP i32_and.
Definition ivec3_and_sc : vec3 Z -> Z -> outcome (vec3 Z) := IMPL_IV3_SC_BINOP i32_and.
Definition sc_and_ivec3 : Z -> vec3 Z -> outcome (vec3 Z) := IMPL_SC_IV3_BINOP i32_and.
(** src/ivec3.cpp 61: operator ^ *)
Definition ivec3_xor : vec3 Z -> vec3 Z -> outcome (vec3 Z) := IMPL_IV3_IV3_BINOP i32_xor.
Definition ivec3_xor_sc : vec3 Z -> Z -> outcome (vec3 Z) := IMPL_IV3_SC_BINOP i32_xor.
Definition sc_xor_ivec3 : Z -> vec3 Z -> outcome (vec3 Z) := IMPL_SC_IV3_BINOP i32_xor.
(** src/ivec3.cpp 62: operator >> *)
Definition ivec3_shr : vec3 Z -> vec3 Z -> outcome (vec3 Z) := IMPL_IV3_IV3_BINOP i32_shr.
Definition ivec3_shr_sc : vec3 Z -> Z -> outcome (vec3 Z) := IMPL_IV3_SC_BINOP i32_shr.
Definition sc_shr_ivec3 : Z -> vec3 Z -> outcome (vec3 Z) := IMPL_SC_IV3_BINOP i32_shr.
(** src/ivec3.cpp 63: operator << *)
Definition ivec3_shl : vec3 Z -> vec3 Z -> outcome (vec3 Z) := IMPL_IV3_IV3_BINOP i32_shl.
Definition ivec3_shl_sc : vec3 Z -> Z -> outcome (vec3 Z) := IMPL_IV3_SC_BINOP i32_shl.
Definition sc_shl_ivec3 : Z -> vec3 Z -> outcome (vec3 Z) := IMPL_SC_IV3_BINOP i32_shl.
(** src/ivec3.cpp 66: operator += *)
Definition ivec3_add_assign : (vec3 Z -> vec3 Z) -> vec3 Z -> outcome (vec3 Z) := IMPL_IV3_COMPOUND_VEC_OP i32_add.
Definition ivec3_add_assign_sc : (vec3 Z -> Z) -> vec3 Z -> outcome (vec3 Z) := IMPL_IV3_COMPOUND_SC_OP i32_add.
(** src/ivec3.cpp 67: operator -= *)
Definition ivec3_sub_assign : (vec3 Z -> vec3 Z) -> vec3 Z -> outcome (vec3 Z) := IMPL_IV3_COMPOUND_VEC_OP i32_sub.
Definition ivec3_sub_assign_sc : (vec3 Z -> Z) -> vec3 Z -> outcome (vec3 Z) := IMPL_IV3_COMPOUND_SC_OP i32_sub.
(** src/ivec3.cpp 68: operator *= *)
Definition ivec3_mul_assign : (vec3 Z -> vec3 Z) -> vec3 Z -> outcome (vec3 Z) := IMPL_IV3_COMPOUND_VEC_OP i32_mul.
Definition ivec3_mul_assign_sc : (vec3 Z -> Z) -> vec3 Z -> outcome (vec3 Z) := IMPL_IV3_COMPOUND_SC_OP i32_mul.
(** src/ivec3.cpp 69: operator /= *)
Definition ivec3_div_assign : (vec3 Z -> vec3 Z) -> vec3 Z -> outcome (vec3 Z) := IMPL_IV3_COMPOUND_VEC_OP i32_div.
Definition ivec3_div_assign_sc : (vec3 Z -> Z) -> vec3 Z -> outcome (vec3 Z) := IMPL_IV3_COMPOUND_SC_OP i32_div.
(** src/ivec3.cpp 70: operator %= *)
Definition ivec3_rem_assign : (vec3 Z -> vec3 Z) -> vec3 Z -> outcome (vec3 Z) := IMPL_IV3_COMPOUND_VEC_OP i32_rem.
Definition ivec3_rem_assign_sc : (vec3 Z -> Z) -> vec3 Z -> outcome (vec3 Z) := IMPL_IV3_COMPOUND_SC_OP i32_rem.
(** src/ivec3.cpp 71: operator |= *)
Definition ivec3_or_assign : (vec3 Z -> vec3 Z) -> vec3 Z -> outcome (vec3 Z) := IMPL_IV3_COMPOUND_VEC_OP i32_or.
Definition ivec3_or_assign_sc : (vec3 Z -> Z) -> vec3 Z -> outcome (vec3 Z) := IMPL_IV3_COMPOUND_SC_OP i32_or.
(** src/ivec3.cpp 72: operator &= *)
Definition ivec3_and_assign : (vec3 Z -> vec3 Z) -> vec3 Z -> outcome (vec3 Z) := IMPL_IV3_COMPOUND_VEC_OP i32_and.
Definition ivec3_and_assign_sc : (vec3 Z -> Z) -> vec3 Z -> outcome (vec3 Z) := IMPL_IV3_COMPOUND_SC_OP i32_and.
(** src/ivec3.cpp 73: operator ^= *)
Definition ivec3_xor_assign : (vec3 Z -> vec3 Z) -> vec3 Z -> outcome (vec3 Z) := IMPL_IV3_COMPOUND_VEC_OP i32_xor.
Definition ivec3_xor_assign_sc : (vec3 Z -> Z) -> vec3 Z -> outcome (vec3 Z) := IMPL_IV3_COMPOUND_SC_OP i32_xor.
(** src/ivec3.cpp 74: operator >>= *)
Definition ivec3_shr_assign : (vec3 Z -> vec3 Z) -> vec3 Z -> outcome (vec3 Z) := IMPL_IV3_COMPOUND_VEC_OP i32_shr.
Definition ivec3_shr_assign_sc : (vec3 Z -> Z) -> vec3 Z -> outcome (vec3 Z) := IMPL_IV3_COMPOUND_SC_OP i32_shr.
(** src/ivec3.cpp 75: operator <<= *)
Definition ivec3_shl_assign : (vec3 Z -> vec3 Z) -> vec3 Z -> outcome (vec3 Z) := IMPL_IV3_COMPOUND_VEC_OP i32_shl.
Definition ivec3_shl_assign_sc : (vec3 Z -> Z) -> vec3 Z -> outcome (vec3 Z) := IMPL_IV3_COMPOUND_SC_OP i32_shl.
(** src/ivec3.cpp 85-90: unary + *)
Definition ivec3_pos (first : vec3 Z) : vec3 Z := V3 (x3 first) (y3 first) (z3 first).
(** src/ivec3.cpp 78-83: unary - *)
Definition ivec3_neg (first : vec3 Z) : outcome (vec3 Z) :=
  do x <- i32_neg (x3 first);
  do y <- i32_neg (y3 first);
  do z <- i32_neg (z3 first);
  Ret (V3 x y z).
(** src/ivec3.cpp 115-122: prefix ++; returns (new object, result) *)
Definition ivec3_preinc (self : vec3 Z) : outcome (vec3 Z * vec3 Z) :=
  do e0 <- i32_add (x3 self) 1;
  let self := set3 self 0 e0 in
  do e1 <- i32_add (y3 self) 1;
  let self := set3 self 1 e1 in
  do e2 <- i32_add (z3 self) 1;
  let self := set3 self 2 e2 in
  Ret (self, self).
(** src/ivec3.cpp 124-131: postfix ++; returns (new object, result) *)
Definition ivec3_postinc (self : vec3 Z) : outcome (vec3 Z * vec3 Z) :=
  let tmp := self in
  do e0 <- i32_add (x3 self) 1;
  let self := set3 self 0 e0 in
  do e1 <- i32_add (y3 self) 1;
  let self := set3 self 1 e1 in
  do e2 <- i32_add (z3 self) 1;
  let self := set3 self 2 e2 in
  Ret (self, tmp).
(** src/ivec3.cpp 133-139: prefix --; returns (new object, result) *)
Definition ivec3_predec (self : vec3 Z) : outcome (vec3 Z * vec3 Z) :=
  do e0 <- i32_sub (x3 self) 1;
  let self := set3 self 0 e0 in
  do e1 <- i32_sub (y3 self) 1;
  let self := set3 self 1 e1 in
  do e2 <- i32_sub (z3 self) 1;
  let self := set3 self 2 e2 in
  Ret (self, self).
(** src/ivec3.cpp 143-150: postfix --; returns (new object, result) *)
Definition ivec3_postdec (self : vec3 Z) : outcome (vec3 Z * vec3 Z) :=
  let tmp := self in
  do e0 <- i32_sub (x3 self) 1;
  let self := set3 self 0 e0 in
  do e1 <- i32_sub (y3 self) 1;
  let self := set3 self 1 e1 in
  do e2 <- i32_sub (z3 self) 1;
  let self := set3 self 2 e2 in
  Ret (self, tmp).
(** src/ivec3.cpp 92-95: operator == *)
Definition ivec3_eq (first second : vec3 Z) : bool :=
  (x3 first =? x3 second) && (y3 first =? y3 second) && (z3 first =? z3 second).
(** src/ivec3.cpp 97-100: operator != *)
Definition ivec3_ne (first second : vec3 Z) : bool := negb (ivec3_eq first second).
(** src/ivec3.cpp 158-166: operator < *)
Definition ivec3_lt (first second : vec3 Z) : bool :=
  if x3 first <? x3 second then true else
  if x3 first >? x3 second then false else
  if y3 first <? y3 second then true else
  if y3 first >? y3 second then false else
  if z3 first <? z3 second then true else
  false.
(** src/ivec3.cpp 168-171: operator <= *)
Definition ivec3_le (first second : vec3 Z) : bool := negb (ivec3_lt second first).
(** src/ivec3.cpp 173-176: operator > *)
Definition ivec3_gt (first second : vec3 Z) : bool := ivec3_lt second first.
(** src/ivec3.cpp 178-181: operator >= *)
Definition ivec3_ge (first second : vec3 Z) : bool := negb (ivec3_lt first second).
(** src/ivec3.cpp 103-113: operator[] *)
Definition ivec3_index (b : build) (self : vec3 Z) (val : N) : outcome Z :=
  do u <- cassert b (N.ltb val 3);
  if N.eqb val 0 then Ret (x3 self) else
  if N.eqb val 1 then Ret (y3 self) else
  if N.eqb val 2 then Ret (z3 self) else
  Undefined.
(** src/ivec3.cpp 103-113: operator[] as an lvalue, [v[val] = a] *)
Definition ivec3_index_set (b : build) (self : vec3 Z) (val : N) (a : Z) : outcome (vec3 Z) :=
  do u <- cassert b (N.ltb val 3);
  if N.eqb val 0 then Ret (set3 self 0 a) else
  if N.eqb val 1 then Ret (set3 self 1 a) else
  if N.eqb val 2 then Ret (set3 self 2 a) else
  Undefined.
(** src/ivec3.cpp 152-155: conversion to bvec3; [bool(i)] is [i != 0] *)
Definition ivec3_to_bvec3 (self : vec3 Z) : vec3 bool :=
  V3 (negb (x3 self =? 0)) (negb (y3 self =? 0)) (negb (z3 self =? 0)).

(** ** ivec4 *)

(** src/ivec4.cpp 19-25: constructor *)
Definition ivec4_i (value : Z) : vec4 Z := V4 value value value value.
(** src/ivec4.cpp 12-14: default constructor *)
Definition ivec4_default : vec4 Z := ivec4_i 0.
(** src/ivec4.cpp 26-32: constructor *)
Definition ivec4_xyzw (x y z w : Z) : vec4 Z := V4 x y z w.
(** src/ivec4.cpp 34-40: constructor *)
Definition ivec4_v3i (xyz : vec3 Z) (w : Z) : vec4 Z := V4 (x3 xyz) (y3 xyz) (z3 xyz) w.
(** src/ivec4.cpp 42-48: constructor *)
Definition ivec4_iv3 (x : Z) (yzw : vec3 Z) : vec4 Z := V4 x (x3 yzw) (y3 yzw) (z3 yzw).
(** src/ivec4.cpp 50-56: constructor *)
Definition ivec4_v2v2 (xy zw : vec2 Z) : vec4 Z := V4 (x2 xy) (y2 xy) (x2 zw) (y2 zw).
(** src/ivec4.cpp 58-64: constructor *)
Definition ivec4_v2ii (xy : vec2 Z) (z w : Z) : vec4 Z := V4 (x2 xy) (y2 xy) z w.
(** src/ivec4.cpp 66-72: constructor *)
Definition ivec4_iv2i (x : Z) (yz : vec2 Z) (w : Z) : vec4 Z := V4 x (x2 yz) (y2 yz) w.
(** src/ivec4.cpp 74-80: constructor *)
Definition ivec4_iiv2 (x y : Z) (zw : vec2 Z) : vec4 Z := V4 x y (x2 zw) (y2 zw).
(** src/ivec4.cpp 82-86: make_ivec4 *)
Definition make_ivec4 (b : build) (ptr : option (list Z)) : outcome (vec4 Z) :=
  do u <- assert_ptr b ptr;
  do x <- deref ptr 0;
  do y <- deref ptr 1;
  do z <- deref ptr 2;
  do w <- deref ptr 3;
  Ret (ivec4_xyzw x y z w).
(** src/ivec4.cpp 89: operator + *)
Definition ivec4_add : vec4 Z -> vec4 Z -> outcome (vec4 Z) := IMPL_IV4_IV4_BINOP i32_add.
Definition ivec4_add_sc : vec4 Z -> Z -> outcome (vec4 Z) := IMPL_IV4_SC_BINOP i32_add.
Definition sc_add_ivec4 : Z -> vec4 Z -> outcome (vec4 Z) := IMPL_SC_IV4_BINOP i32_add.
(** src/ivec4.cpp 90: operator - *)
Definition ivec4_sub : vec4 Z -> vec4 Z -> outcome (vec4 Z) := IMPL_IV4_IV4_BINOP i32_sub.
Definition ivec4_sub_sc : vec4 Z -> Z -> outcome (vec4 Z) := IMPL_IV4_SC_BINOP i32_sub.
Definition sc_sub_ivec4 : Z -> vec4 Z -> outcome (vec4 Z) := IMPL_SC_IV4_BINOP i32_sub.
(** src/ivec4.cpp 91: operator * *)
Definition ivec4_mul : vec4 Z -> vec4 Z -> outcome (vec4 Z) := IMPL_IV4_IV4_BINOP i32_mul.
Definition ivec4_mul_sc : vec4 Z -> Z -> outcome (vec4 Z) := IMPL_IV4_SC_BINOP i32_mul.
Definition sc_mul_ivec4 : Z -> vec4 Z -> outcome (vec4 Z) := IMPL_SC_IV4_BINOP i32_mul.
(** src/ivec4.cpp 92: operator / *)
Definition ivec4_div : vec4 Z -> vec4 Z -> outcome (vec4 Z) := IMPL_IV4_IV4_BINOP i32_div.
Definition ivec4_div_sc : vec4 Z -> Z -> outcome (vec4 Z) := IMPL_IV4_SC_BINOP i32_div.
Definition sc_div_ivec4 : Z -> vec4 Z -> outcome (vec4 Z) := IMPL_SC_IV4_BINOP i32_div.
(** src/ivec4.cpp 95: operator += *)
Definition ivec4_add_assign : (vec4 Z -> vec4 Z) -> vec4 Z -> outcome (vec4 Z) := IMPL_IV4_COMPOUND_VEC_OP i32_add.
Definition ivec4_add_assign_sc : (vec4 Z -> Z) -> vec4 Z -> outcome (vec4 Z) := IMPL_IV4_COMPOUND_SC_OP i32_add.
(** src/ivec4.cpp 96: operator -= *)
Definition ivec4_sub_assign : (vec4 Z -> vec4 Z) -> vec4 Z -> outcome (vec4 Z) := IMPL_IV4_COMPOUND_VEC_OP i32_sub.
Definition ivec4_sub_assign_sc : (vec4 Z -> Z) -> vec4 Z -> outcome (vec4 Z) := IMPL_IV4_COMPOUND_SC_OP i32_sub.
(** src/ivec4.cpp 97: operator *= *)
Definition ivec4_mul_assign : (vec4 Z -> vec4 Z) -> vec4 Z -> outcome (vec4 Z) := IMPL_IV4_COMPOUND_VEC_OP i32_mul.
Definition ivec4_mul_assign_sc : (vec4 Z -> Z) -> vec4 Z -> outcome (vec4 Z) := IMPL_IV4_COMPOUND_SC_OP i32_mul.
(** src/ivec4.cpp 98: operator /= *)
Definition ivec4_div_assign : (vec4 Z -> vec4 Z) -> vec4 Z -> outcome (vec4 Z) := IMPL_IV4_COMPOUND_VEC_OP i32_div.
Definition ivec4_div_assign_sc : (vec4 Z -> Z) -> vec4 Z -> outcome (vec4 Z) := IMPL_IV4_COMPOUND_SC_OP i32_div.
(** src/ivec4.cpp 109-115: unary + *)
Definition ivec4_pos (first : vec4 Z) : vec4 Z := V4 (x4 first) (y4 first) (z4 first) (w4 first).
(** src/ivec4.cpp 100-106: unary - *)
Definition ivec4_neg (first : vec4 Z) : outcome (vec4 Z) :=
  do x <- i32_neg (x4 first);
  do y <- i32_neg (y4 first);
  do z <- i32_neg (z4 first);
  do w <- i32_neg (w4 first);
  Ret (V4 x y z w).
(** src/ivec4.cpp 117-124: prefix ++; returns (new object, result) *)
Definition ivec4_preinc (self : vec4 Z) : outcome (vec4 Z * vec4 Z) :=
  do e0 <- i32_add (x4 self) 1;
  let self := set4 self 0 e0 in
  do e1 <- i32_add (y4 self) 1;
  let self := set4 self 1 e1 in
  do e2 <- i32_add (z4 self) 1;
  let self := set4 self 2 e2 in
  do e3 <- i32_add (w4 self) 1;
  let self := set4 self 3 e3 in
  Ret (self, self).
(** src/ivec4.cpp 126-134: postfix ++; returns (new object, result) *)
Definition ivec4_postinc (self : vec4 Z) : outcome (vec4 Z * vec4 Z) :=
  let tmp := self in
  do e0 <- i32_add (x4 self) 1;
  let self := set4 self 0 e0 in
  do e1 <- i32_add (y4 self) 1;
  let self := set4 self 1 e1 in
  do e2 <- i32_add (z4 self) 1;
  let self := set4 self 2 e2 in
  do e3 <- i32_add (w4 self) 1;
  let self := set4 self 3 e3 in
  Ret (self, tmp).
(** src/ivec4.cpp 136-143: prefix --; returns (new object, result) *)
Definition ivec4_predec (self : vec4 Z) : outcome (vec4 Z * vec4 Z) :=
  do e0 <- i32_sub (x4 self) 1;
  let self := set4 self 0 e0 in
  do e1 <- i32_sub (y4 self) 1;
  let self := set4 self 1 e1 in
  do e2 <- i32_sub (z4 self) 1;
  let self := set4 self 2 e2 in
  do e3 <- i32_sub (w4 self) 1;
  let self := set4 self 3 e3 in
  Ret (self, self).
(** src/ivec4.cpp 145-153: postfix --; returns (new object, result) *)
Definition ivec4_postdec (self : vec4 Z) : outcome (vec4 Z * vec4 Z) :=
  let tmp := self in
  do e0 <- i32_sub (x4 self) 1;
  let self := set4 self 0 e0 in
  do e1 <- i32_sub (y4 self) 1;
  let self := set4 self 1 e1 in
  do e2 <- i32_sub (z4 self) 1;
  let self := set4 self 2 e2 in
  do e3 <- i32_sub (w4 self) 1;
  let self := set4 self 3 e3 in
  Ret (self, tmp).
(** src/ivec4.cpp 155-158: operator == *)
Definition ivec4_eq (first second : vec4 Z) : bool :=
  (x4 first =? x4 second) && (y4 first =? y4 second) && (z4 first =? z4 second) && (w4 first =? w4 second).
(** src/ivec4.cpp 160-163: operator != *)
Definition ivec4_ne (first second : vec4 Z) : bool := negb (ivec4_eq first second).
(** src/ivec4.cpp 165-175: operator < *)
Definition ivec4_lt (first second : vec4 Z) : bool :=
  if x4 first <? x4 second then true else
  if x4 first >? x4 second then false else
  if y4 first <? y4 second then true else
  if y4 first >? y4 second then false else
  if z4 first <? z4 second then true else
  if z4 first >? z4 second then false else
  if w4 first <? w4 second then true else
  false.
(** src/ivec4.cpp 177-180: operator <= *)
Definition ivec4_le (first second : vec4 Z) : bool := negb (ivec4_lt second first).
(** src/ivec4.cpp 182-185: operator > *)
Definition ivec4_gt (first second : vec4 Z) : bool := ivec4_lt second first.
(** src/ivec4.cpp 187-190: operator >= *)
Definition ivec4_ge (first second : vec4 Z) : bool := negb (ivec4_lt first second).
(** src/ivec4.cpp 193-203: operator[] *)
Definition ivec4_index (b : build) (self : vec4 Z) (val : N) : outcome Z :=
  do u <- cassert b (N.ltb val 4);
  if N.eqb val 0 then Ret (x4 self) else
  if N.eqb val 1 then Ret (y4 self) else
  if N.eqb val 2 then Ret (z4 self) else
  if N.eqb val 3 then Ret (w4 self) else
  Undefined.
(** src/ivec4.cpp 193-203: operator[] as an lvalue, [v[val] = a] *)
Definition ivec4_index_set (b : build) (self : vec4 Z) (val : N) (a : Z) : outcome (vec4 Z) :=
  do u <- cassert b (N.ltb val 4);
  if N.eqb val 0 then Ret (set4 self 0 a) else
  if N.eqb val 1 then Ret (set4 self 1 a) else
  if N.eqb val 2 then Ret (set4 self 2 a) else
  if N.eqb val 3 then Ret (set4 self 3 a) else
  Undefined.
(** src/ivec4.cpp 205-208: conversion to bvec4; [bool(i)] is [i != 0] *)
Definition ivec4_to_bvec4 (self : vec4 Z) : vec4 bool :=
  V4 (negb (x4 self =? 0)) (negb (y4 self =? 0)) (negb (z4 self =? 0)) (negb (w4 self =? 0)).

