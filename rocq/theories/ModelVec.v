(** * Float vectors: src/vec2.cpp, src/vec3.cpp, src/vec4.cpp and the operator
    macros of include/zcm/detail/impl_op_macro.hpp

    A mutating member function is modelled as a function of the object's old
    value [self].  Its argument is given as [rd : object -> argument]: the
    argument as read while the object has a given value, so that
    [rd := fun _ => other] is an unrelated argument and [rd := fun s => s] is the
    object itself ([v += v]).  A by-value parameter reads [rd] once, on entry. *)
From Coq Require Import ZArith NArith Bool List.
From Verif Require Import Scalar Outcome Types.
Local Open Scope outcome_scope.
Local Open Scope scalar_scope.

(** ** impl_op_macro.hpp: the operator macros, generic in the operator *)

(** impl_op_macro.hpp 36-37: ZCM_IMPL_V2_V2_BINOP *)
Definition IMPL_V2_V2_BINOP {A B} (op : A -> A -> B) (first second : vec2 A) : vec2 B :=
  V2 (op (x2 first) (x2 second)) (op (y2 first) (y2 second)).
(** impl_op_macro.hpp 39-40: ZCM_IMPL_V2_SC_BINOP *)
Definition IMPL_V2_SC_BINOP {A B} (op : A -> A -> B) (vec : vec2 A) (scalar : A) : vec2 B :=
  V2 (op (x2 vec) scalar) (op (y2 vec) scalar).
(** impl_op_macro.hpp 42-43: ZCM_IMPL_SC_V2_BINOP *)
Definition IMPL_SC_V2_BINOP {A B} (op : A -> A -> B) (scalar : A) (vec : vec2 A) : vec2 B :=
  V2 (op scalar (x2 vec)) (op scalar (y2 vec)).
(** impl_op_macro.hpp 45-46: ZCM_IMPL_V2_COMPOUND_VEC_OP; [other] is passed by value,
    the elements are updated one after the other *)
Definition IMPL_V2_COMPOUND_VEC_OP {A} (op : A -> A -> A) (rd : vec2 A -> vec2 A)
    (self : vec2 A) : vec2 A :=
  let other := rd self in
  let self := set2 self 0 (op (x2 self) (x2 other)) in
  let self := set2 self 1 (op (y2 self) (y2 other)) in
  self.
(** impl_op_macro.hpp 48-49: ZCM_IMPL_V2_COMPOUND_SC_OP; [scalar] is passed by value *)
Definition IMPL_V2_COMPOUND_SC_OP {A} (op : A -> A -> A) (rd : vec2 A -> A)
    (self : vec2 A) : vec2 A :=
  let scalar := rd self in
  let self := set2 self 0 (op (x2 self) scalar) in
  let self := set2 self 1 (op (y2 self) scalar) in
  self.

(** impl_op_macro.hpp 53-54: ZCM_IMPL_V3_V3_BINOP *)
Definition IMPL_V3_V3_BINOP {A B} (op : A -> A -> B) (first second : vec3 A) : vec3 B :=
  V3 (op (x3 first) (x3 second)) (op (y3 first) (y3 second)) (op (z3 first) (z3 second)).
(** impl_op_macro.hpp 56-57: ZCM_IMPL_V3_SC_BINOP *)
Definition IMPL_V3_SC_BINOP {A B} (op : A -> A -> B) (vec : vec3 A) (scalar : A) : vec3 B :=
  V3 (op (x3 vec) scalar) (op (y3 vec) scalar) (op (z3 vec) scalar).
(** impl_op_macro.hpp 59-60: ZCM_IMPL_SC_V3_BINOP *)
Definition IMPL_SC_V3_BINOP {A B} (op : A -> A -> B) (scalar : A) (vec : vec3 A) : vec3 B :=
  V3 (op scalar (x3 vec)) (op scalar (y3 vec)) (op scalar (z3 vec)).
(** impl_op_macro.hpp 62-63: ZCM_IMPL_V3_COMPOUND_VEC_OP; [other] is passed by value,
    the elements are updated one after the other *)
Definition IMPL_V3_COMPOUND_VEC_OP {A} (op : A -> A -> A) (rd : vec3 A -> vec3 A)
    (self : vec3 A) : vec3 A :=
  let other := rd self in
  let self := set3 self 0 (op (x3 self) (x3 other)) in
  let self := set3 self 1 (op (y3 self) (y3 other)) in
  let self := set3 self 2 (op (z3 self) (z3 other)) in
  self.
(** impl_op_macro.hpp 65-66: ZCM_IMPL_V3_COMPOUND_SC_OP; [scalar] is passed by value *)
Definition IMPL_V3_COMPOUND_SC_OP {A} (op : A -> A -> A) (rd : vec3 A -> A)
    (self : vec3 A) : vec3 A :=
  let scalar := rd self in
  let self := set3 self 0 (op (x3 self) scalar) in
  let self := set3 self 1 (op (y3 self) scalar) in
  let self := set3 self 2 (op (z3 self) scalar) in
  self.

(** impl_op_macro.hpp 70-71: ZCM_IMPL_V4_V4_BINOP *)
Definition IMPL_V4_V4_BINOP {A B} (op : A -> A -> B) (first second : vec4 A) : vec4 B :=
  V4 (op (x4 first) (x4 second)) (op (y4 first) (y4 second)) (op (z4 first) (z4 second)) (op (w4 first) (w4 second)).
(** impl_op_macro.hpp 73-74: ZCM_IMPL_V4_SC_BINOP *)
Definition IMPL_V4_SC_BINOP {A B} (op : A -> A -> B) (vec : vec4 A) (scalar : A) : vec4 B :=
  V4 (op (x4 vec) scalar) (op (y4 vec) scalar) (op (z4 vec) scalar) (op (w4 vec) scalar).
(** impl_op_macro.hpp 76-77: ZCM_IMPL_SC_V4_BINOP *)
Definition IMPL_SC_V4_BINOP {A B} (op : A -> A -> B) (scalar : A) (vec : vec4 A) : vec4 B :=
  V4 (op scalar (x4 vec)) (op scalar (y4 vec)) (op scalar (z4 vec)) (op scalar (w4 vec)).
(** impl_op_macro.hpp 79-80: ZCM_IMPL_V4_COMPOUND_VEC_OP; [other] is passed by value,
    the elements are updated one after the other *)
Definition IMPL_V4_COMPOUND_VEC_OP {A} (op : A -> A -> A) (rd : vec4 A -> vec4 A)
    (self : vec4 A) : vec4 A :=
  let other := rd self in
  let self := set4 self 0 (op (x4 self) (x4 other)) in
  let self := set4 self 1 (op (y4 self) (y4 other)) in
  let self := set4 self 2 (op (z4 self) (z4 other)) in
  let self := set4 self 3 (op (w4 self) (w4 other)) in
  self.
(** impl_op_macro.hpp 82-83: ZCM_IMPL_V4_COMPOUND_SC_OP; [scalar] is passed by value *)
Definition IMPL_V4_COMPOUND_SC_OP {A} (op : A -> A -> A) (rd : vec4 A -> A)
    (self : vec4 A) : vec4 A :=
  let scalar := rd self in
  let self := set4 self 0 (op (x4 self) scalar) in
  let self := set4 self 1 (op (y4 self) scalar) in
  let self := set4 self 2 (op (z4 self) scalar) in
  let self := set4 self 3 (op (w4 self) scalar) in
  self.

Section FloatVectors.
Variable S : Scalar.

(** ** vec2 *)

(** src/vec2.cpp 10-21: constructor *)
Definition vec2_f (value : S) : vec2 S := V2 value value.
(** src/vec2.cpp 10-12: default constructor *)
Definition vec2_default : vec2 S := vec2_f f0.
(** src/vec2.cpp 23-24: vec2(int32_t) *)
Definition vec2_i (value : Z) : vec2 S := vec2_f (sofZ value).
(** src/vec2.cpp 26-30: constructor *)
Definition vec2_xy (x y : S) : vec2 S := V2 x y.
(** src/vec2.cpp 32-36: make_vec2 *)
Definition make_vec2 (b : build) (ptr : option (list S)) : outcome (vec2 S) :=
  do u <- assert_ptr b ptr;
  do x <- deref ptr 0;
  do y <- deref ptr 1;
  Ret (vec2_xy x y).
(** src/vec2.cpp 39: operator + *)
Definition vec2_add : vec2 S -> vec2 S -> vec2 S := IMPL_V2_V2_BINOP sadd.
Definition vec2_add_sc : vec2 S -> S -> vec2 S := IMPL_V2_SC_BINOP sadd.
Definition sc_add_vec2 : S -> vec2 S -> vec2 S := IMPL_SC_V2_BINOP sadd.
(** src/vec2.cpp 40: operator - *)
Definition vec2_sub : vec2 S -> vec2 S -> vec2 S := IMPL_V2_V2_BINOP ssub.
Definition vec2_sub_sc : vec2 S -> S -> vec2 S := IMPL_V2_SC_BINOP ssub.
Definition sc_sub_vec2 : S -> vec2 S -> vec2 S := IMPL_SC_V2_BINOP ssub.
(** src/vec2.cpp 41: operator * *)
Definition vec2_mul : vec2 S -> vec2 S -> vec2 S := IMPL_V2_V2_BINOP smul.
Definition vec2_mul_sc : vec2 S -> S -> vec2 S := IMPL_V2_SC_BINOP smul.
Definition sc_mul_vec2 : S -> vec2 S -> vec2 S := IMPL_SC_V2_BINOP smul.
(** src/vec2.cpp 42: operator / *)
Definition vec2_div : vec2 S -> vec2 S -> vec2 S := IMPL_V2_V2_BINOP sdiv.
Definition vec2_div_sc : vec2 S -> S -> vec2 S := IMPL_V2_SC_BINOP sdiv.
Definition sc_div_vec2 : S -> vec2 S -> vec2 S := IMPL_SC_V2_BINOP sdiv.
(** src/vec2.cpp 45: operator += *)
Definition vec2_add_assign : (vec2 S -> vec2 S) -> vec2 S -> vec2 S := IMPL_V2_COMPOUND_VEC_OP sadd.
Definition vec2_add_assign_sc : (vec2 S -> S) -> vec2 S -> vec2 S := IMPL_V2_COMPOUND_SC_OP sadd.
(** src/vec2.cpp 46: operator -= *)
Definition vec2_sub_assign : (vec2 S -> vec2 S) -> vec2 S -> vec2 S := IMPL_V2_COMPOUND_VEC_OP ssub.
Definition vec2_sub_assign_sc : (vec2 S -> S) -> vec2 S -> vec2 S := IMPL_V2_COMPOUND_SC_OP ssub.
(** src/vec2.cpp 47: operator *= *)
Definition vec2_mul_assign : (vec2 S -> vec2 S) -> vec2 S -> vec2 S := IMPL_V2_COMPOUND_VEC_OP smul.
Definition vec2_mul_assign_sc : (vec2 S -> S) -> vec2 S -> vec2 S := IMPL_V2_COMPOUND_SC_OP smul.
(** src/vec2.cpp 48: operator /= *)
Definition vec2_div_assign : (vec2 S -> vec2 S) -> vec2 S -> vec2 S := IMPL_V2_COMPOUND_VEC_OP sdiv.
Definition vec2_div_assign_sc : (vec2 S -> S) -> vec2 S -> vec2 S := IMPL_V2_COMPOUND_SC_OP sdiv.
(** src/vec2.cpp 51-54: unary + *)
Definition vec2_pos (first : vec2 S) : vec2 S := V2 (x2 first) (y2 first).
(** src/vec2.cpp 56-59: unary - *)
Definition vec2_neg (first : vec2 S) : vec2 S := V2 (- x2 first) (- y2 first).
(** src/vec2.cpp 61-66: prefix ++; returns (new object, result) *)
Definition vec2_preinc (self : vec2 S) : vec2 S * vec2 S :=
  let self := set2 self 0 (x2 self + f1) in
  let self := set2 self 1 (y2 self + f1) in
  (self, self).
(** src/vec2.cpp 68-74: postfix ++; returns (new object, result) *)
Definition vec2_postinc (self : vec2 S) : vec2 S * vec2 S :=
  let tmp := self in
  let self := set2 self 0 (x2 self + f1) in
  let self := set2 self 1 (y2 self + f1) in
  (self, tmp).
(** src/vec2.cpp 76-81: prefix --; returns (new object, result) *)
Definition vec2_predec (self : vec2 S) : vec2 S * vec2 S :=
  let self := set2 self 0 (x2 self - f1) in
  let self := set2 self 1 (y2 self - f1) in
  (self, self).
(** src/vec2.cpp 83-89: postfix --; returns (new object, result) *)
Definition vec2_postdec (self : vec2 S) : vec2 S * vec2 S :=
  let tmp := self in
  let self := set2 self 0 (x2 self - f1) in
  let self := set2 self 1 (y2 self - f1) in
  (self, tmp).
(** src/vec2.cpp 91-94: operator == *)
Definition vec2_eq (first second : vec2 S) : bool :=
  (x2 first =? x2 second) && (y2 first =? y2 second).
(** src/vec2.cpp 96-99: operator != *)
Definition vec2_ne (first second : vec2 S) : bool := negb (vec2_eq first second).
(** src/vec2.cpp 102-112: operator[] with its assertion; past the array the read is undefined *)
Definition vec2_index (b : build) (self : vec2 S) (val : N) : outcome S :=
  do u <- cassert b (N.ltb val 3);
  if N.eqb val 0 then Ret (x2 self) else
  if N.eqb val 1 then Ret (y2 self) else
  Undefined.
(** src/vec2.cpp 102-112: the same operator used as an lvalue, [v[val] = a] *)
Definition vec2_index_set (b : build) (self : vec2 S) (val : N) (a : S) : outcome (vec2 S) :=
  do u <- cassert b (N.ltb val 3);
  if N.eqb val 0 then Ret (set2 self 0 a) else
  if N.eqb val 1 then Ret (set2 self 1 a) else
  Undefined.

(** ** vec3 *)

(** src/vec3.cpp 18-23: constructor *)
Definition vec3_f (value : S) : vec3 S := V3 value value value.
(** src/vec3.cpp 11-13: default constructor *)
Definition vec3_default : vec3 S := vec3_f f0.
(** src/vec3.cpp 25-26: vec3(int32_t) *)
Definition vec3_i (value : Z) : vec3 S := vec3_f (sofZ value).
(** src/vec3.cpp 28-33: constructor *)
Definition vec3_xyz (x y z : S) : vec3 S := V3 x y z.
(** src/vec3.cpp 35-40: constructor *)
Definition vec3_v2f (xy : vec2 S) (z : S) : vec3 S := V3 (x2 xy) (y2 xy) z.
(** src/vec3.cpp 42-47: constructor *)
Definition vec3_fv2 (x : S) (yz : vec2 S) : vec3 S := V3 x (x2 yz) (y2 yz).
(** src/vec3.cpp 49-53: make_vec3 *)
Definition make_vec3 (b : build) (ptr : option (list S)) : outcome (vec3 S) :=
  do u <- assert_ptr b ptr;
  do x <- deref ptr 0;
  do y <- deref ptr 1;
  do z <- deref ptr 2;
  Ret (vec3_xyz x y z).
(** src/vec3.cpp 56: operator + *)
Definition vec3_add : vec3 S -> vec3 S -> vec3 S := IMPL_V3_V3_BINOP sadd.
Definition vec3_add_sc : vec3 S -> S -> vec3 S := IMPL_V3_SC_BINOP sadd.
Definition sc_add_vec3 : S -> vec3 S -> vec3 S := IMPL_SC_V3_BINOP sadd.
(** src/vec3.cpp 57: operator - *)
Definition vec3_sub : vec3 S -> vec3 S -> vec3 S := IMPL_V3_V3_BINOP ssub.
Definition vec3_sub_sc : vec3 S -> S -> vec3 S := IMPL_V3_SC_BINOP ssub.
Definition sc_sub_vec3 : S -> vec3 S -> vec3 S := IMPL_SC_V3_BINOP ssub.
(** src/vec3.cpp 58: operator * *)
Definition vec3_mul : vec3 S -> vec3 S -> vec3 S := IMPL_V3_V3_BINOP smul.
Definition vec3_mul_sc : vec3 S -> S -> vec3 S := IMPL_V3_SC_BINOP smul.
Definition sc_mul_vec3 : S -> vec3 S -> vec3 S := IMPL_SC_V3_BINOP smul.
(** src/vec3.cpp 59: operator / *)
Definition vec3_div : vec3 S -> vec3 S -> vec3 S := IMPL_V3_V3_BINOP sdiv.
Definition vec3_div_sc : vec3 S -> S -> vec3 S := IMPL_V3_SC_BINOP sdiv.
Definition sc_div_vec3 : S -> vec3 S -> vec3 S := IMPL_SC_V3_BINOP sdiv.
(** src/vec3.cpp 62: operator += *)
Definition vec3_add_assign : (vec3 S -> vec3 S) -> vec3 S -> vec3 S := IMPL_V3_COMPOUND_VEC_OP sadd.
Definition vec3_add_assign_sc : (vec3 S -> S) -> vec3 S -> vec3 S := IMPL_V3_COMPOUND_SC_OP sadd.
(** src/vec3.cpp 63: operator -= *)
Definition vec3_sub_assign : (vec3 S -> vec3 S) -> vec3 S -> vec3 S := IMPL_V3_COMPOUND_VEC_OP ssub.
Definition vec3_sub_assign_sc : (vec3 S -> S) -> vec3 S -> vec3 S := IMPL_V3_COMPOUND_SC_OP ssub.
(** src/vec3.cpp 64: operator *= *)
Definition vec3_mul_assign : (vec3 S -> vec3 S) -> vec3 S -> vec3 S := IMPL_V3_COMPOUND_VEC_OP smul.
Definition vec3_mul_assign_sc : (vec3 S -> S) -> vec3 S -> vec3 S := IMPL_V3_COMPOUND_SC_OP smul.
(** src/vec3.cpp 65: operator /= *)
Definition vec3_div_assign : (vec3 S -> vec3 S) -> vec3 S -> vec3 S := IMPL_V3_COMPOUND_VEC_OP sdiv.
Definition vec3_div_assign_sc : (vec3 S -> S) -> vec3 S -> vec3 S := IMPL_V3_COMPOUND_SC_OP sdiv.
(** src/vec3.cpp 73-76: unary + *)
Definition vec3_pos (first : vec3 S) : vec3 S := V3 (x3 first) (y3 first) (z3 first).
(** src/vec3.cpp 68-71: unary - *)
Definition vec3_neg (first : vec3 S) : vec3 S := V3 (- x3 first) (- y3 first) (- z3 first).
(** src/vec3.cpp 78-84: prefix ++; returns (new object, result) *)
Definition vec3_preinc (self : vec3 S) : vec3 S * vec3 S :=
  let self := set3 self 0 (x3 self + f1) in
  let self := set3 self 1 (y3 self + f1) in
  let self := set3 self 2 (z3 self + f1) in
  (self, self).
(** src/vec3.cpp 86-93: postfix ++; returns (new object, result) *)
Definition vec3_postinc (self : vec3 S) : vec3 S * vec3 S :=
  let tmp := self in
  let self := set3 self 0 (x3 self + f1) in
  let self := set3 self 1 (y3 self + f1) in
  let self := set3 self 2 (z3 self + f1) in
  (self, tmp).
(** src/vec3.cpp 95-101: prefix --; returns (new object, result) *)
Definition vec3_predec (self : vec3 S) : vec3 S * vec3 S :=
  let self := set3 self 0 (x3 self - f1) in
  let self := set3 self 1 (y3 self - f1) in
  let self := set3 self 2 (z3 self - f1) in
  (self, self).
(** src/vec3.cpp 103-110: postfix --; returns (new object, result) *)
Definition vec3_postdec (self : vec3 S) : vec3 S * vec3 S :=
  let tmp := self in
  let self := set3 self 0 (x3 self - f1) in
  let self := set3 self 1 (y3 self - f1) in
  let self := set3 self 2 (z3 self - f1) in
  (self, tmp).
(** src/vec3.cpp 112-115: operator == *)
Definition vec3_eq (first second : vec3 S) : bool :=
  (x3 first =? x3 second) && (y3 first =? y3 second) && (z3 first =? z3 second).
(** src/vec3.cpp 117-120: operator != *)
Definition vec3_ne (first second : vec3 S) : bool := negb (vec3_eq first second).
(** src/vec3.cpp 123-133: operator[] with its assertion; past the array the read is undefined *)
Definition vec3_index (b : build) (self : vec3 S) (val : N) : outcome S :=
  do u <- cassert b (N.ltb val 3);
  if N.eqb val 0 then Ret (x3 self) else
  if N.eqb val 1 then Ret (y3 self) else
  if N.eqb val 2 then Ret (z3 self) else
  Undefined.
(** src/vec3.cpp 123-133: the same operator used as an lvalue, [v[val] = a] *)
Definition vec3_index_set (b : build) (self : vec3 S) (val : N) (a : S) : outcome (vec3 S) :=
  do u <- cassert b (N.ltb val 3);
  if N.eqb val 0 then Ret (set3 self 0 a) else
  if N.eqb val 1 then Ret (set3 self 1 a) else
  if N.eqb val 2 then Ret (set3 self 2 a) else
  Undefined.

(** ** vec4 *)

(** src/vec4.cpp 19-25: constructor *)
Definition vec4_f (value : S) : vec4 S := V4 value value value value.
(** src/vec4.cpp 12-14: default constructor *)
Definition vec4_default : vec4 S := vec4_f f0.
(** src/vec4.cpp 27-28: vec4(int32_t) *)
Definition vec4_i (value : Z) : vec4 S := vec4_f (sofZ value).
(** src/vec4.cpp 30-36: constructor *)
Definition vec4_xyzw (x y z w : S) : vec4 S := V4 x y z w.
(** src/vec4.cpp 38-44: constructor *)
Definition vec4_v3f (xyz : vec3 S) (w : S) : vec4 S := V4 (x3 xyz) (y3 xyz) (z3 xyz) w.
(** src/vec4.cpp 46-52: constructor *)
Definition vec4_fv3 (x : S) (yzw : vec3 S) : vec4 S := V4 x (x3 yzw) (y3 yzw) (z3 yzw).
(** src/vec4.cpp 54-60: constructor *)
Definition vec4_v2v2 (xy zw : vec2 S) : vec4 S := V4 (x2 xy) (y2 xy) (x2 zw) (y2 zw).
(** src/vec4.cpp 62-68: constructor *)
Definition vec4_v2ff (xy : vec2 S) (z w : S) : vec4 S := V4 (x2 xy) (y2 xy) z w.
(** src/vec4.cpp 70-76: constructor *)
Definition vec4_fv2f (x : S) (yz : vec2 S) (w : S) : vec4 S := V4 x (x2 yz) (y2 yz) w.
(** src/vec4.cpp 78-84: constructor *)
Definition vec4_ffv2 (x y : S) (zw : vec2 S) : vec4 S := V4 x y (x2 zw) (y2 zw).
(** src/vec4.cpp 86-90: make_vec4 *)
Definition make_vec4 (b : build) (ptr : option (list S)) : outcome (vec4 S) :=
  do u <- assert_ptr b ptr;
  do x <- deref ptr 0;
  do y <- deref ptr 1;
  do z <- deref ptr 2;
  do w <- deref ptr 3;
  Ret (vec4_xyzw x y z w).
(** src/vec4.cpp 93: operator + *)
Definition vec4_add : vec4 S -> vec4 S -> vec4 S := IMPL_V4_V4_BINOP sadd.
Definition vec4_add_sc : vec4 S -> S -> vec4 S := IMPL_V4_SC_BINOP sadd.
Definition sc_add_vec4 : S -> vec4 S -> vec4 S := IMPL_SC_V4_BINOP sadd.
(** src/vec4.cpp 94: operator - *)
Definition vec4_sub : vec4 S -> vec4 S -> vec4 S := IMPL_V4_V4_BINOP ssub.
Definition vec4_sub_sc : vec4 S -> S -> vec4 S := IMPL_V4_SC_BINOP ssub.
Definition sc_sub_vec4 : S -> vec4 S -> vec4 S := IMPL_SC_V4_BINOP ssub.
(** src/vec4.cpp 95: operator * *)
Definition vec4_mul : vec4 S -> vec4 S -> vec4 S := IMPL_V4_V4_BINOP smul.
Definition vec4_mul_sc : vec4 S -> S -> vec4 S := IMPL_V4_SC_BINOP smul.
Definition sc_mul_vec4 : S -> vec4 S -> vec4 S := IMPL_SC_V4_BINOP smul.
(** src/vec4.cpp 96: operator / *)
Definition vec4_div : vec4 S -> vec4 S -> vec4 S := IMPL_V4_V4_BINOP sdiv.
Definition vec4_div_sc : vec4 S -> S -> vec4 S := IMPL_V4_SC_BINOP sdiv.
Definition sc_div_vec4 : S -> vec4 S -> vec4 S := IMPL_SC_V4_BINOP sdiv.
(** src/vec4.cpp 99: operator += *)
Definition vec4_add_assign : (vec4 S -> vec4 S) -> vec4 S -> vec4 S := IMPL_V4_COMPOUND_VEC_OP sadd.
Definition vec4_add_assign_sc : (vec4 S -> S) -> vec4 S -> vec4 S := IMPL_V4_COMPOUND_SC_OP sadd.
(** src/vec4.cpp 100: operator -= *)
Definition vec4_sub_assign : (vec4 S -> vec4 S) -> vec4 S -> vec4 S := IMPL_V4_COMPOUND_VEC_OP ssub.
Definition vec4_sub_assign_sc : (vec4 S -> S) -> vec4 S -> vec4 S := IMPL_V4_COMPOUND_SC_OP ssub.
(** src/vec4.cpp 101: operator *= *)
Definition vec4_mul_assign : (vec4 S -> vec4 S) -> vec4 S -> vec4 S := IMPL_V4_COMPOUND_VEC_OP smul.
Definition vec4_mul_assign_sc : (vec4 S -> S) -> vec4 S -> vec4 S := IMPL_V4_COMPOUND_SC_OP smul.
(** src/vec4.cpp 102: operator /= *)
Definition vec4_div_assign : (vec4 S -> vec4 S) -> vec4 S -> vec4 S := IMPL_V4_COMPOUND_VEC_OP sdiv.
Definition vec4_div_assign_sc : (vec4 S -> S) -> vec4 S -> vec4 S := IMPL_V4_COMPOUND_SC_OP sdiv.
(** src/vec4.cpp 115-121: unary + *)
Definition vec4_pos (first : vec4 S) : vec4 S := V4 (x4 first) (y4 first) (z4 first) (w4 first).
(** src/vec4.cpp 106-112: unary - *)
Definition vec4_neg (first : vec4 S) : vec4 S := V4 (- x4 first) (- y4 first) (- z4 first) (- w4 first).
(** src/vec4.cpp 123-130: prefix ++; returns (new object, result) *)
Definition vec4_preinc (self : vec4 S) : vec4 S * vec4 S :=
  let self := set4 self 0 (x4 self + f1) in
  let self := set4 self 1 (y4 self + f1) in
  let self := set4 self 2 (z4 self + f1) in
  let self := set4 self 3 (w4 self + f1) in
  (self, self).
(** src/vec4.cpp 132-140: postfix ++; returns (new object, result) *)
Definition vec4_postinc (self : vec4 S) : vec4 S * vec4 S :=
  let tmp := self in
  let self := set4 self 0 (x4 self + f1) in
  let self := set4 self 1 (y4 self + f1) in
  let self := set4 self 2 (z4 self + f1) in
  let self := set4 self 3 (w4 self + f1) in
  (self, tmp).
(** src/vec4.cpp 142-149: prefix --; returns (new object, result) *)
Definition vec4_predec (self : vec4 S) : vec4 S * vec4 S :=
  let self := set4 self 0 (x4 self - f1) in
  let self := set4 self 1 (y4 self - f1) in
  let self := set4 self 2 (z4 self - f1) in
  let self := set4 self 3 (w4 self - f1) in
  (self, self).
(** src/vec4.cpp 151-159: postfix --; returns (new object, result) *)
Definition vec4_postdec (self : vec4 S) : vec4 S * vec4 S :=
  let tmp := self in
  let self := set4 self 0 (x4 self - f1) in
  let self := set4 self 1 (y4 self - f1) in
  let self := set4 self 2 (z4 self - f1) in
  let self := set4 self 3 (w4 self - f1) in
  (self, tmp).
(** src/vec4.cpp 161-164: operator == *)
Definition vec4_eq (first second : vec4 S) : bool :=
  (x4 first =? x4 second) && (y4 first =? y4 second) && (z4 first =? z4 second) && (w4 first =? w4 second).
(** src/vec4.cpp 166-169: operator != *)
Definition vec4_ne (first second : vec4 S) : bool := negb (vec4_eq first second).
(** src/vec4.cpp 171-181: operator[] with its assertion; past the array the read is undefined *)
Definition vec4_index (b : build) (self : vec4 S) (val : N) : outcome S :=
  do u <- cassert b (N.ltb val 4);
  if N.eqb val 0 then Ret (x4 self) else
  if N.eqb val 1 then Ret (y4 self) else
  if N.eqb val 2 then Ret (z4 self) else
  if N.eqb val 3 then Ret (w4 self) else
  Undefined.
(** src/vec4.cpp 171-181: the same operator used as an lvalue, [v[val] = a] *)
Definition vec4_index_set (b : build) (self : vec4 S) (val : N) (a : S) : outcome (vec4 S) :=
  do u <- cassert b (N.ltb val 4);
  if N.eqb val 0 then Ret (set4 self 0 a) else
  if N.eqb val 1 then Ret (set4 self 1 a) else
  if N.eqb val 2 then Ret (set4 self 2 a) else
  if N.eqb val 3 then Ret (set4 self 3 a) else
  Undefined.

End FloatVectors.
