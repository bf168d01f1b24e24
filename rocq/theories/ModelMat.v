(** * src/mat2.cpp, src/mat3.cpp, src/mat4.cpp

    [m[i][j]] is column [i], row [j].  The compound operators evaluate the binary
    operator on the old value and assign once ([*this = *this + first]), so the
    argument is read at the old value even when it aliases the object. *)
From Coq Require Import ZArith NArith Bool List.
From Verif Require Import Scalar Outcome Types ModelVec.
Local Open Scope outcome_scope.
Local Open Scope scalar_scope.

Section Mat.
Variable S : Scalar.

(** ** mat2 *)

(** mat2.cpp 16-20: mat2(float), a multiple of the identity *)
Definition mat2_f (value : S) : mat2 S :=
  M2 (V2 value f0) (V2 f0 value).
(** mat2.cpp 10-11: mat2() *)
Definition mat2_default : mat2 S := mat2_f f1.
(** mat2.cpp 22-28: mat2 from its elements, column by column *)
Definition mat2_el (c00 c01 c10 c11 : S) : mat2 S :=
  M2 (V2 c00 c01) (V2 c10 c11).
(** mat2.cpp 30-34: mat2 from its columns *)
Definition mat2_cols (c0 c1 : vec2 S) : mat2 S := M2 c0 c1.
(** mat2.cpp 36-46: operator[] *)
Definition mat2_index (b : build) (m : mat2 S) (pos : N) : outcome (vec2 S) :=
  do u <- cassert b (N.ltb pos 2);
  if N.eqb pos 0 then Ret (m2c0 m) else
  if N.eqb pos 1 then Ret (m2c1 m) else
  Undefined.
(** mat2.cpp 36-46: [m[pos] = a] through the returned reference *)
Definition mat2_index_set (b : build) (m : mat2 S) (pos : N) (a : vec2 S) : outcome (mat2 S) :=
  do u <- cassert b (N.ltb pos 2);
  if N.eqb pos 0 then Ret (M2 a (m2c1 m)) else
  if N.eqb pos 1 then Ret (M2 (m2c0 m) a) else
  Undefined.
(** mat2.cpp 48-52 *)
Definition mat2_add (first second : mat2 S) : mat2 S :=
  M2 (vec2_add S (col2 first 0) (col2 second 0)) (vec2_add S (col2 first 1) (col2 second 1)).
(** mat2.cpp 54-58 *)
Definition mat2_sub (first second : mat2 S) : mat2 S :=
  M2 (vec2_sub S (col2 first 0) (col2 second 0)) (vec2_sub S (col2 first 1) (col2 second 1)).
(** mat2.cpp 60-64: unary - *)
Definition mat2_neg (first : mat2 S) : mat2 S :=
  M2 (vec2_neg S (col2 first 0)) (vec2_neg S (col2 first 1)).
(** mat2.cpp 66-69: unary + *)
Definition mat2_pos (first : mat2 S) : mat2 S := first.
(** mat2.cpp 72-79: mat2 * mat2 *)
Definition mat2_mul (m1 m2 : mat2 S) : mat2 S :=
  mat2_el
    (at2 m1 0 0 * at2 m2 0 0 + at2 m1 1 0 * at2 m2 0 1)
    (at2 m1 0 1 * at2 m2 0 0 + at2 m1 1 1 * at2 m2 0 1)
    (at2 m1 0 0 * at2 m2 1 0 + at2 m1 1 0 * at2 m2 1 1)
    (at2 m1 0 1 * at2 m2 1 0 + at2 m1 1 1 * at2 m2 1 1).
(** mat2.cpp 88-92 *)
Definition mat2_mul_sc (mat : mat2 S) (scalar : S) : mat2 S :=
  M2 (vec2_mul_sc S (col2 mat 0) scalar) (vec2_mul_sc S (col2 mat 1) scalar).
(** mat2.cpp 94-98 *)
Definition mat2_div_sc (mat : mat2 S) (scalar : S) : mat2 S :=
  M2 (vec2_div_sc S (col2 mat 0) scalar) (vec2_div_sc S (col2 mat 1) scalar).
(** mat2.cpp 100-104 *)
Definition sc_mul_mat2 (scalar : S) (mat : mat2 S) : mat2 S :=
  M2 (sc_mul_vec2 S scalar (col2 mat 0)) (sc_mul_vec2 S scalar (col2 mat 1)).
(** mat2.cpp 106-110 *)
Definition sc_div_mat2 (scalar : S) (mat : mat2 S) : mat2 S :=
  M2 (sc_div_vec2 S scalar (col2 mat 0)) (sc_div_vec2 S scalar (col2 mat 1)).
(** mat2.cpp 112-116: mat2 * vec2 *)
Definition mat2_mul_vec (m : mat2 S) (v : vec2 S) : vec2 S :=
  V2 (at2 m 0 0 * x2 v + at2 m 1 0 * y2 v)
     (at2 m 0 1 * x2 v + at2 m 1 1 * y2 v).
(** mat2.cpp 118-122: vec2 * mat2 *)
Definition vec_mul_mat2 (v : vec2 S) (m : mat2 S) : vec2 S :=
  V2 (x2 v * at2 m 0 0 + y2 v * at2 m 0 1)
     (x2 v * at2 m 1 0 + y2 v * at2 m 1 1).
(** mat2.cpp 134-137: operator+= *)
Definition mat2_add_assign (rd : mat2 S -> mat2 S) (self : mat2 S) : mat2 S := mat2_add self (rd self).
(** mat2.cpp 139-142: operator-= *)
Definition mat2_sub_assign (rd : mat2 S -> mat2 S) (self : mat2 S) : mat2 S := mat2_sub self (rd self).
(** mat2.cpp 144-147: operator*= *)
Definition mat2_mul_assign (rd : mat2 S -> mat2 S) (self : mat2 S) : mat2 S := mat2_mul self (rd self).
(** mat2.cpp 154-157 *)
Definition mat2_eq (first second : mat2 S) : bool :=
  vec2_eq S (col2 first 0) (col2 second 0) && vec2_eq S (col2 first 1) (col2 second 1).
(** mat2.cpp 159-162 *)
Definition mat2_ne (first second : mat2 S) : bool := negb (mat2_eq first second).
(** mat2.cpp 166-173: make_mat2 *)
Definition make_mat2 (b : build) (ptr : option (list S)) : outcome (mat2 S) :=
  do u <- assert_ptr b ptr;
  do p0 <- deref ptr 0;
  do p1 <- deref ptr 1;
  do p2 <- deref ptr 2;
  do p3 <- deref ptr 3;
  Ret (mat2_el p0 p1 p2 p3).

(** ** mat3 *)

(** mat3.cpp 16-21: mat3(float), a multiple of the identity *)
Definition mat3_f (value : S) : mat3 S :=
  M3 (V3 value f0 f0) (V3 f0 value f0) (V3 f0 f0 value).
(** mat3.cpp 10-11: mat3() *)
Definition mat3_default : mat3 S := mat3_f f1.
(** mat3.cpp 43-48: mat3 from its elements, column by column *)
Definition mat3_el (c00 c01 c02 c10 c11 c12 c20 c21 c22 : S) : mat3 S :=
  M3 (V3 c00 c01 c02) (V3 c10 c11 c12) (V3 c20 c21 c22).
(** mat3.cpp 36-41: mat3 from its columns *)
Definition mat3_cols (c0 c1 c2 : vec3 S) : mat3 S := M3 c0 c1 c2.
(** mat3.cpp 162-172: operator[] *)
Definition mat3_index (b : build) (m : mat3 S) (pos : N) : outcome (vec3 S) :=
  do u <- cassert b (N.ltb pos 3);
  if N.eqb pos 0 then Ret (m3c0 m) else
  if N.eqb pos 1 then Ret (m3c1 m) else
  if N.eqb pos 2 then Ret (m3c2 m) else
  Undefined.
(** mat3.cpp 162-172: [m[pos] = a] through the returned reference *)
Definition mat3_index_set (b : build) (m : mat3 S) (pos : N) (a : vec3 S) : outcome (mat3 S) :=
  do u <- cassert b (N.ltb pos 3);
  if N.eqb pos 0 then Ret (M3 a (m3c1 m) (m3c2 m)) else
  if N.eqb pos 1 then Ret (M3 (m3c0 m) a (m3c2 m)) else
  if N.eqb pos 2 then Ret (M3 (m3c0 m) (m3c1 m) a) else
  Undefined.
(** mat3.cpp 50-55 *)
Definition mat3_add (first second : mat3 S) : mat3 S :=
  M3 (vec3_add S (col3 first 0) (col3 second 0)) (vec3_add S (col3 first 1) (col3 second 1)) (vec3_add S (col3 first 2) (col3 second 2)).
(** mat3.cpp 57-62 *)
Definition mat3_sub (first second : mat3 S) : mat3 S :=
  M3 (vec3_sub S (col3 first 0) (col3 second 0)) (vec3_sub S (col3 first 1) (col3 second 1)) (vec3_sub S (col3 first 2) (col3 second 2)).
(** mat3.cpp 64-69: unary - *)
Definition mat3_neg (first : mat3 S) : mat3 S :=
  M3 (vec3_neg S (col3 first 0)) (vec3_neg S (col3 first 1)) (vec3_neg S (col3 first 2)).
(** mat3.cpp 71-74: unary + *)
Definition mat3_pos (first : mat3 S) : mat3 S := first.
(** mat3.cpp 94-127: mat3 * mat3; the nine elements of [Result] are each written once *)
Definition mat3_mul (m1 m2 : mat3 S) : mat3 S :=
  let SrcA00 := at3 m1 0 0 in
  let SrcA01 := at3 m1 0 1 in
  let SrcA02 := at3 m1 0 2 in
  let SrcA10 := at3 m1 1 0 in
  let SrcA11 := at3 m1 1 1 in
  let SrcA12 := at3 m1 1 2 in
  let SrcA20 := at3 m1 2 0 in
  let SrcA21 := at3 m1 2 1 in
  let SrcA22 := at3 m1 2 2 in
  let SrcB00 := at3 m2 0 0 in
  let SrcB01 := at3 m2 0 1 in
  let SrcB02 := at3 m2 0 2 in
  let SrcB10 := at3 m2 1 0 in
  let SrcB11 := at3 m2 1 1 in
  let SrcB12 := at3 m2 1 2 in
  let SrcB20 := at3 m2 2 0 in
  let SrcB21 := at3 m2 2 1 in
  let SrcB22 := at3 m2 2 2 in
  M3
    (V3 (SrcA00 * SrcB00 + SrcA10 * SrcB01 + SrcA20 * SrcB02)
        (SrcA01 * SrcB00 + SrcA11 * SrcB01 + SrcA21 * SrcB02)
        (SrcA02 * SrcB00 + SrcA12 * SrcB01 + SrcA22 * SrcB02))
    (V3 (SrcA00 * SrcB10 + SrcA10 * SrcB11 + SrcA20 * SrcB12)
        (SrcA01 * SrcB10 + SrcA11 * SrcB11 + SrcA21 * SrcB12)
        (SrcA02 * SrcB10 + SrcA12 * SrcB11 + SrcA22 * SrcB12))
    (V3 (SrcA00 * SrcB20 + SrcA10 * SrcB21 + SrcA20 * SrcB22)
        (SrcA01 * SrcB20 + SrcA11 * SrcB21 + SrcA21 * SrcB22)
        (SrcA02 * SrcB20 + SrcA12 * SrcB21 + SrcA22 * SrcB22)).
(** mat3.cpp 134-139 *)
Definition mat3_mul_sc (mat : mat3 S) (scalar : S) : mat3 S :=
  M3 (vec3_mul_sc S (col3 mat 0) scalar) (vec3_mul_sc S (col3 mat 1) scalar) (vec3_mul_sc S (col3 mat 2) scalar).
(** mat3.cpp 141-146 *)
Definition mat3_div_sc (mat : mat3 S) (scalar : S) : mat3 S :=
  M3 (vec3_div_sc S (col3 mat 0) scalar) (vec3_div_sc S (col3 mat 1) scalar) (vec3_div_sc S (col3 mat 2) scalar).
(** mat3.cpp 148-153 *)
Definition sc_mul_mat3 (scalar : S) (mat : mat3 S) : mat3 S :=
  M3 (sc_mul_vec3 S scalar (col3 mat 0)) (sc_mul_vec3 S scalar (col3 mat 1)) (sc_mul_vec3 S scalar (col3 mat 2)).
(** mat3.cpp 155-160 *)
Definition sc_div_mat3 (scalar : S) (mat : mat3 S) : mat3 S :=
  M3 (sc_div_vec3 S scalar (col3 mat 0)) (sc_div_vec3 S scalar (col3 mat 1)) (sc_div_vec3 S scalar (col3 mat 2)).
(** mat3.cpp 194-199: mat3 * vec3 *)
Definition mat3_mul_vec (m : mat3 S) (v : vec3 S) : vec3 S :=
  V3 (at3 m 0 0 * x3 v + at3 m 1 0 * y3 v + at3 m 2 0 * z3 v)
     (at3 m 0 1 * x3 v + at3 m 1 1 * y3 v + at3 m 2 1 * z3 v)
     (at3 m 0 2 * x3 v + at3 m 1 2 * y3 v + at3 m 2 2 * z3 v).
(** mat3.cpp 201-206: vec3 * mat3 *)
Definition vec_mul_mat3 (v : vec3 S) (m : mat3 S) : vec3 S :=
  V3 (at3 m 0 0 * x3 v + at3 m 0 1 * y3 v + at3 m 0 2 * z3 v)
     (at3 m 1 0 * x3 v + at3 m 1 1 * y3 v + at3 m 1 2 * z3 v)
     (at3 m 2 0 * x3 v + at3 m 2 1 * y3 v + at3 m 2 2 * z3 v).
(** mat3.cpp 174-177: operator+= *)
Definition mat3_add_assign (rd : mat3 S -> mat3 S) (self : mat3 S) : mat3 S := mat3_add self (rd self).
(** mat3.cpp 179-182: operator-= *)
Definition mat3_sub_assign (rd : mat3 S -> mat3 S) (self : mat3 S) : mat3 S := mat3_sub self (rd self).
(** mat3.cpp 184-187: operator*= *)
Definition mat3_mul_assign (rd : mat3 S -> mat3 S) (self : mat3 S) : mat3 S := mat3_mul self (rd self).
(** mat3.cpp 218-221 *)
Definition mat3_eq (first second : mat3 S) : bool :=
  vec3_eq S (col3 first 0) (col3 second 0) && vec3_eq S (col3 first 1) (col3 second 1) && vec3_eq S (col3 first 2) (col3 second 2).
(** mat3.cpp 223-226 *)
Definition mat3_ne (first second : mat3 S) : bool := negb (mat3_eq first second).
(** mat3.cpp 228-236: make_mat3 *)
Definition make_mat3 (b : build) (ptr : option (list S)) : outcome (mat3 S) :=
  do u <- assert_ptr b ptr;
  do p0 <- deref ptr 0;
  do p1 <- deref ptr 1;
  do p2 <- deref ptr 2;
  do p3 <- deref ptr 3;
  do p4 <- deref ptr 4;
  do p5 <- deref ptr 5;
  do p6 <- deref ptr 6;
  do p7 <- deref ptr 7;
  do p8 <- deref ptr 8;
  Ret (mat3_el p0 p1 p2 p3 p4 p5 p6 p7 p8).

(** ** mat4 *)

(** mat4.cpp 16-22: mat4(float), a multiple of the identity *)
Definition mat4_f (value : S) : mat4 S :=
  M4 (V4 value f0 f0 f0) (V4 f0 value f0 f0) (V4 f0 f0 value f0) (V4 f0 f0 f0 value).
(** mat4.cpp 10-11: mat4() *)
Definition mat4_default : mat4 S := mat4_f f1.
(** mat4.cpp 32-41: mat4 from its elements, column by column *)
Definition mat4_el (c00 c01 c02 c03 c10 c11 c12 c13 c20 c21 c22 c23 c30 c31 c32 c33 : S) : mat4 S :=
  M4 (V4 c00 c01 c02 c03) (V4 c10 c11 c12 c13) (V4 c20 c21 c22 c23) (V4 c30 c31 c32 c33).
(** mat4.cpp 24-30: mat4 from its columns *)
Definition mat4_cols (c0 c1 c2 c3 : vec4 S) : mat4 S := M4 c0 c1 c2 c3.
(** mat4.cpp 167-177: operator[] *)
Definition mat4_index (b : build) (m : mat4 S) (pos : N) : outcome (vec4 S) :=
  do u <- cassert b (N.ltb pos 4);
  if N.eqb pos 0 then Ret (m4c0 m) else
  if N.eqb pos 1 then Ret (m4c1 m) else
  if N.eqb pos 2 then Ret (m4c2 m) else
  if N.eqb pos 3 then Ret (m4c3 m) else
  Undefined.
(** mat4.cpp 167-177: [m[pos] = a] through the returned reference *)
Definition mat4_index_set (b : build) (m : mat4 S) (pos : N) (a : vec4 S) : outcome (mat4 S) :=
  do u <- cassert b (N.ltb pos 4);
  if N.eqb pos 0 then Ret (M4 a (m4c1 m) (m4c2 m) (m4c3 m)) else
  if N.eqb pos 1 then Ret (M4 (m4c0 m) a (m4c2 m) (m4c3 m)) else
  if N.eqb pos 2 then Ret (M4 (m4c0 m) (m4c1 m) a (m4c3 m)) else
  if N.eqb pos 3 then Ret (M4 (m4c0 m) (m4c1 m) (m4c2 m) a) else
  Undefined.
(** mat4.cpp 59-65 *)
Definition mat4_add (first second : mat4 S) : mat4 S :=
  M4 (vec4_add S (col4 first 0) (col4 second 0)) (vec4_add S (col4 first 1) (col4 second 1)) (vec4_add S (col4 first 2) (col4 second 2)) (vec4_add S (col4 first 3) (col4 second 3)).
(** mat4.cpp 67-73 *)
Definition mat4_sub (first second : mat4 S) : mat4 S :=
  M4 (vec4_sub S (col4 first 0) (col4 second 0)) (vec4_sub S (col4 first 1) (col4 second 1)) (vec4_sub S (col4 first 2) (col4 second 2)) (vec4_sub S (col4 first 3) (col4 second 3)).
(** mat4.cpp 75-81: unary - *)
Definition mat4_neg (first : mat4 S) : mat4 S :=
  M4 (vec4_neg S (col4 first 0)) (vec4_neg S (col4 first 1)) (vec4_neg S (col4 first 2)) (vec4_neg S (col4 first 3)).
(** mat4.cpp 83-86: unary + *)
Definition mat4_pos (first : mat4 S) : mat4 S := first.
(** mat4.cpp 88-106: mat4 * mat4 *)
Definition mat4_mul (m1 m2 : mat4 S) : mat4 S :=
  let SrcA0 := col4 m1 0 in let SrcA1 := col4 m1 1 in
  let SrcA2 := col4 m1 2 in let SrcA3 := col4 m1 3 in
  let SrcB0 := col4 m2 0 in let SrcB1 := col4 m2 1 in
  let SrcB2 := col4 m2 2 in let SrcB3 := col4 m2 3 in
  M4
    (vec4_add S (vec4_add S (vec4_add S (vec4_mul_sc S SrcA0 (el4 SrcB0 0)) (vec4_mul_sc S SrcA1 (el4 SrcB0 1)))
                            (vec4_mul_sc S SrcA2 (el4 SrcB0 2))) (vec4_mul_sc S SrcA3 (el4 SrcB0 3)))
    (vec4_add S (vec4_add S (vec4_add S (vec4_mul_sc S SrcA0 (el4 SrcB1 0)) (vec4_mul_sc S SrcA1 (el4 SrcB1 1)))
                            (vec4_mul_sc S SrcA2 (el4 SrcB1 2))) (vec4_mul_sc S SrcA3 (el4 SrcB1 3)))
    (vec4_add S (vec4_add S (vec4_add S (vec4_mul_sc S SrcA0 (el4 SrcB2 0)) (vec4_mul_sc S SrcA1 (el4 SrcB2 1)))
                            (vec4_mul_sc S SrcA2 (el4 SrcB2 2))) (vec4_mul_sc S SrcA3 (el4 SrcB2 3)))
    (vec4_add S (vec4_add S (vec4_add S (vec4_mul_sc S SrcA0 (el4 SrcB3 0)) (vec4_mul_sc S SrcA1 (el4 SrcB3 1)))
                            (vec4_mul_sc S SrcA2 (el4 SrcB3 2))) (vec4_mul_sc S SrcA3 (el4 SrcB3 3))).
(** mat4.cpp 114-120 *)
Definition mat4_mul_sc (mat : mat4 S) (scalar : S) : mat4 S :=
  M4 (vec4_mul_sc S (col4 mat 0) scalar) (vec4_mul_sc S (col4 mat 1) scalar) (vec4_mul_sc S (col4 mat 2) scalar) (vec4_mul_sc S (col4 mat 3) scalar).
(** mat4.cpp 122-128 *)
Definition mat4_div_sc (mat : mat4 S) (scalar : S) : mat4 S :=
  M4 (vec4_div_sc S (col4 mat 0) scalar) (vec4_div_sc S (col4 mat 1) scalar) (vec4_div_sc S (col4 mat 2) scalar) (vec4_div_sc S (col4 mat 3) scalar).
(** mat4.cpp 130-136 *)
Definition sc_mul_mat4 (scalar : S) (mat : mat4 S) : mat4 S :=
  M4 (sc_mul_vec4 S scalar (col4 mat 0)) (sc_mul_vec4 S scalar (col4 mat 1)) (sc_mul_vec4 S scalar (col4 mat 2)) (sc_mul_vec4 S scalar (col4 mat 3)).
(** mat4.cpp 138-144 *)
Definition sc_div_mat4 (scalar : S) (mat : mat4 S) : mat4 S :=
  M4 (sc_div_vec4 S scalar (col4 mat 0)) (sc_div_vec4 S scalar (col4 mat 1)) (sc_div_vec4 S scalar (col4 mat 2)) (sc_div_vec4 S scalar (col4 mat 3)).
(** mat4.cpp 179-193: mat4 * vec4 *)
Definition mat4_mul_vec (m : mat4 S) (v : vec4 S) : vec4 S :=
  let Mov0 := el4 v 0 in
  let Mov1 := el4 v 1 in
  let Mul0 := vec4_mul_sc S (col4 m 0) Mov0 in
  let Mul1 := vec4_mul_sc S (col4 m 1) Mov1 in
  let Add0 := vec4_add S Mul0 Mul1 in
  let Mov2 := el4 v 2 in
  let Mov3 := el4 v 3 in
  let Mul2 := vec4_mul_sc S (col4 m 2) Mov2 in
  let Mul3 := vec4_mul_sc S (col4 m 3) Mov3 in
  let Add1 := vec4_add S Mul2 Mul3 in
  let Add2 := vec4_add S Add0 Add1 in
  Add2.
(** mat4.cpp 195-201: vec4 * mat4 *)
Definition vec_mul_mat4 (v : vec4 S) (m : mat4 S) : vec4 S :=
  V4 (at4 m 0 0 * el4 v 0 + at4 m 0 1 * el4 v 1 + at4 m 0 2 * el4 v 2 + at4 m 0 3 * el4 v 3)
     (at4 m 1 0 * el4 v 0 + at4 m 1 1 * el4 v 1 + at4 m 1 2 * el4 v 2 + at4 m 1 3 * el4 v 3)
     (at4 m 2 0 * el4 v 0 + at4 m 2 1 * el4 v 1 + at4 m 2 2 * el4 v 2 + at4 m 2 3 * el4 v 3)
     (at4 m 3 0 * el4 v 0 + at4 m 3 1 * el4 v 1 + at4 m 3 2 * el4 v 2 + at4 m 3 3 * el4 v 3).
(** mat4.cpp 147-150: operator+= *)
Definition mat4_add_assign (rd : mat4 S -> mat4 S) (self : mat4 S) : mat4 S := mat4_add self (rd self).
(** mat4.cpp 152-155: operator-= *)
Definition mat4_sub_assign (rd : mat4 S -> mat4 S) (self : mat4 S) : mat4 S := mat4_sub self (rd self).
(** mat4.cpp 157-160: operator*= *)
Definition mat4_mul_assign (rd : mat4 S -> mat4 S) (self : mat4 S) : mat4 S := mat4_mul self (rd self).
(** mat4.cpp 213-216 *)
Definition mat4_eq (first second : mat4 S) : bool :=
  vec4_eq S (col4 first 0) (col4 second 0) && vec4_eq S (col4 first 1) (col4 second 1) && vec4_eq S (col4 first 2) (col4 second 2) && vec4_eq S (col4 first 3) (col4 second 3).
(** mat4.cpp 218-221 *)
Definition mat4_ne (first second : mat4 S) : bool := negb (mat4_eq first second).
(** mat4.cpp 223-232: make_mat4 *)
Definition make_mat4 (b : build) (ptr : option (list S)) : outcome (mat4 S) :=
  do u <- assert_ptr b ptr;
  do p0 <- deref ptr 0;
  do p1 <- deref ptr 1;
  do p2 <- deref ptr 2;
  do p3 <- deref ptr 3;
  do p4 <- deref ptr 4;
  do p5 <- deref ptr 5;
  do p6 <- deref ptr 6;
  do p7 <- deref ptr 7;
  do p8 <- deref ptr 8;
  do p9 <- deref ptr 9;
  do p10 <- deref ptr 10;
  do p11 <- deref ptr 11;
  do p12 <- deref ptr 12;
  do p13 <- deref ptr 13;
  do p14 <- deref ptr 14;
  do p15 <- deref ptr 15;
  Ret (mat4_el p0 p1 p2 p3 p4 p5 p6 p7 p8 p9 p10 p11 p12 p13 p14 p15).

(** ** Conversions between sizes *)

(** mat3.cpp 23-28: mat3(const mat2&), through the checked mat2 operator[] *)
Definition mat3_of_mat2 (b : build) (m2 : mat2 S) : outcome (mat3 S) :=
  do c0 <- mat2_index b m2 0;
  do c1 <- mat2_index b m2 1;
  do c2 <- mat2_index b m2 2;
  Ret (M3 (V3 (x2 c0) (y2 c0) f0) (V3 (x2 c1) (y2 c1) f0) (V3 (x2 c2) (y2 c2) f1)).
(** mat3.cpp 30-33: mat3::operator mat2() *)
Definition mat2_of_mat3 (m : mat3 S) : mat2 S :=
  mat2_el (x3 (m3c0 m)) (y3 (m3c0 m)) (x3 (m3c1 m)) (y3 (m3c1 m)).
(** mat4.cpp 43-49: mat4(const mat3&) *)
Definition mat4_of_mat3 (m : mat3 S) : mat4 S :=
  M4 (vec4_v3f S (col3 m 0) f0) (vec4_v3f S (col3 m 1) f0) (vec4_v3f S (col3 m 2) f0)
     (V4 f0 f0 f0 f1).
(** mat4.cpp 51-56: mat4::operator mat3() *)
Definition mat3_of_mat4 (m : mat4 S) : mat3 S :=
  M3 (V3 (x4 (m4c0 m)) (y4 (m4c0 m)) (z4 (m4c0 m)))
     (V3 (x4 (m4c1 m)) (y4 (m4c1 m)) (z4 (m4c1 m)))
     (V3 (x4 (m4c2 m)) (y4 (m4c2 m)) (z4 (m4c2 m))).

End Mat.
