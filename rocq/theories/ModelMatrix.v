(** * src/matrix.cpp, and the operator / of src/mat2.cpp, src/mat3.cpp, src/mat4.cpp

    A local matrix whose elements are assigned one by one (each exactly once, none
    read before) is written as the matrix of those elements. *)
From Coq Require Import ZArith Bool List.
From Verif Require Import Scalar Outcome Types ModelVec ModelMat.
Local Open Scope scalar_scope.

Section Matrix.
Variable S : Scalar.

(** matrix.cpp 6-9 *)
Definition matrixCompMult2 (x y : mat2 S) : mat2 S :=
  M2 (vec2_mul S (col2 x 0) (col2 y 0)) (vec2_mul S (col2 x 1) (col2 y 1)).
(** matrix.cpp 12-15 *)
Definition matrixCompMult3 (x y : mat3 S) : mat3 S :=
  M3 (vec3_mul S (col3 x 0) (col3 y 0)) (vec3_mul S (col3 x 1) (col3 y 1)) (vec3_mul S (col3 x 2) (col3 y 2)).
(** matrix.cpp 17-20 *)
Definition matrixCompMult4 (x y : mat4 S) : mat4 S :=
  M4 (vec4_mul S (col4 x 0) (col4 y 0)) (vec4_mul S (col4 x 1) (col4 y 1)) (vec4_mul S (col4 x 2) (col4 y 2)) (vec4_mul S (col4 x 3) (col4 y 3)).
(** matrix.cpp 22-32 *)
Definition transpose2 (m : mat2 S) : mat2 S :=
  M2
    (V2 (at2 m 0 0)
        (at2 m 1 0))
    (V2 (at2 m 0 1)
        (at2 m 1 1)).
(** matrix.cpp 34-51 *)
Definition transpose3 (m : mat3 S) : mat3 S :=
  M3
    (V3 (at3 m 0 0)
        (at3 m 1 0)
        (at3 m 2 0))
    (V3 (at3 m 0 1)
        (at3 m 1 1)
        (at3 m 2 1))
    (V3 (at3 m 0 2)
        (at3 m 1 2)
        (at3 m 2 2)).
(** matrix.cpp 53-78 *)
Definition transpose4 (m : mat4 S) : mat4 S :=
  M4
    (V4 (at4 m 0 0)
        (at4 m 1 0)
        (at4 m 2 0)
        (at4 m 3 0))
    (V4 (at4 m 0 1)
        (at4 m 1 1)
        (at4 m 2 1)
        (at4 m 3 1))
    (V4 (at4 m 0 2)
        (at4 m 1 2)
        (at4 m 2 2)
        (at4 m 3 2))
    (V4 (at4 m 0 3)
        (at4 m 1 3)
        (at4 m 2 3)
        (at4 m 3 3)).
(** matrix.cpp 80-83 *)
Definition determinant2 (m : mat2 S) : S := at2 m 0 0 * at2 m 1 1 - at2 m 1 0 * at2 m 0 1.
(** matrix.cpp 85-91 *)
Definition determinant3 (m : mat3 S) : S :=
  at3 m 0 0 * (at3 m 1 1 * at3 m 2 2 - at3 m 2 1 * at3 m 1 2)
  - at3 m 1 0 * (at3 m 0 1 * at3 m 2 2 - at3 m 2 1 * at3 m 0 2)
  + at3 m 2 0 * (at3 m 0 1 * at3 m 1 2 - at3 m 1 1 * at3 m 0 2).
(** matrix.cpp 93-111 *)
Definition determinant4 (m : mat4 S) : S :=
  let SubFactor00 := at4 m 2 2 * at4 m 3 3 - at4 m 3 2 * at4 m 2 3 in
  let SubFactor01 := at4 m 2 1 * at4 m 3 3 - at4 m 3 1 * at4 m 2 3 in
  let SubFactor02 := at4 m 2 1 * at4 m 3 2 - at4 m 3 1 * at4 m 2 2 in
  let SubFactor03 := at4 m 2 0 * at4 m 3 3 - at4 m 3 0 * at4 m 2 3 in
  let SubFactor04 := at4 m 2 0 * at4 m 3 2 - at4 m 3 0 * at4 m 2 2 in
  let SubFactor05 := at4 m 2 0 * at4 m 3 1 - at4 m 3 0 * at4 m 2 1 in
  let DetCof := V4
    ((at4 m 1 1 * SubFactor00 - at4 m 1 2 * SubFactor01 + at4 m 1 3 * SubFactor02))
    (- (at4 m 1 0 * SubFactor00 - at4 m 1 2 * SubFactor03 + at4 m 1 3 * SubFactor04))
    ((at4 m 1 0 * SubFactor01 - at4 m 1 1 * SubFactor03 + at4 m 1 3 * SubFactor05))
    (- (at4 m 1 0 * SubFactor02 - at4 m 1 1 * SubFactor04 + at4 m 1 2 * SubFactor05))
  in
  at4 m 0 0 * el4 DetCof 0 + at4 m 0 1 * el4 DetCof 1 +
  at4 m 0 2 * el4 DetCof 2 + at4 m 0 3 * el4 DetCof 3.
(** matrix.cpp 113-125 *)
Definition inverse2 (m : mat2 S) : mat2 S :=
  let OneOverDeterminant := f1 / (at2 m 0 0 * at2 m 1 1 - at2 m 1 0 * at2 m 0 1) in
  mat2_el S (at2 m 1 1 * OneOverDeterminant)
            (- at2 m 0 1 * OneOverDeterminant)
            (- at2 m 1 0 * OneOverDeterminant)
            (at2 m 0 0 * OneOverDeterminant).
(** matrix.cpp 127-146 *)
Definition inverse3 (m : mat3 S) : mat3 S :=
  let oneOverDeterminant := f1 / (
      at3 m 0 0 * (at3 m 1 1 * at3 m 2 2 - at3 m 2 1 * at3 m 1 2)
      - at3 m 1 0 * (at3 m 0 1 * at3 m 2 2 - at3 m 2 1 * at3 m 0 2)
      + at3 m 2 0 * (at3 m 0 1 * at3 m 1 2 - at3 m 1 1 * at3 m 0 2)) in
  M3
    (V3 ((at3 m 1 1 * at3 m 2 2 - at3 m 2 1 * at3 m 1 2) * oneOverDeterminant)
        (- (at3 m 0 1 * at3 m 2 2 - at3 m 2 1 * at3 m 0 2) * oneOverDeterminant)
        ((at3 m 0 1 * at3 m 1 2 - at3 m 1 1 * at3 m 0 2) * oneOverDeterminant))
    (V3 (- (at3 m 1 0 * at3 m 2 2 - at3 m 2 0 * at3 m 1 2) * oneOverDeterminant)
        ((at3 m 0 0 * at3 m 2 2 - at3 m 2 0 * at3 m 0 2) * oneOverDeterminant)
        (- (at3 m 0 0 * at3 m 1 2 - at3 m 1 0 * at3 m 0 2) * oneOverDeterminant))
    (V3 ((at3 m 1 0 * at3 m 2 1 - at3 m 2 0 * at3 m 1 1) * oneOverDeterminant)
        (- (at3 m 0 0 * at3 m 2 1 - at3 m 2 0 * at3 m 0 1) * oneOverDeterminant)
        ((at3 m 0 0 * at3 m 1 1 - at3 m 1 0 * at3 m 0 1) * oneOverDeterminant)).
(** matrix.cpp 148-203; [vec4 SignA(+1, -1, +1, -1)] converts ints *)
Definition inverse4 (m : mat4 S) : mat4 S :=
  let Coef00 := at4 m 2 2 * at4 m 3 3 - at4 m 3 2 * at4 m 2 3 in
  let Coef02 := at4 m 1 2 * at4 m 3 3 - at4 m 3 2 * at4 m 1 3 in
  let Coef03 := at4 m 1 2 * at4 m 2 3 - at4 m 2 2 * at4 m 1 3 in
  let Coef04 := at4 m 2 1 * at4 m 3 3 - at4 m 3 1 * at4 m 2 3 in
  let Coef06 := at4 m 1 1 * at4 m 3 3 - at4 m 3 1 * at4 m 1 3 in
  let Coef07 := at4 m 1 1 * at4 m 2 3 - at4 m 2 1 * at4 m 1 3 in
  let Coef08 := at4 m 2 1 * at4 m 3 2 - at4 m 3 1 * at4 m 2 2 in
  let Coef10 := at4 m 1 1 * at4 m 3 2 - at4 m 3 1 * at4 m 1 2 in
  let Coef11 := at4 m 1 1 * at4 m 2 2 - at4 m 2 1 * at4 m 1 2 in
  let Coef12 := at4 m 2 0 * at4 m 3 3 - at4 m 3 0 * at4 m 2 3 in
  let Coef14 := at4 m 1 0 * at4 m 3 3 - at4 m 3 0 * at4 m 1 3 in
  let Coef15 := at4 m 1 0 * at4 m 2 3 - at4 m 2 0 * at4 m 1 3 in
  let Coef16 := at4 m 2 0 * at4 m 3 2 - at4 m 3 0 * at4 m 2 2 in
  let Coef18 := at4 m 1 0 * at4 m 3 2 - at4 m 3 0 * at4 m 1 2 in
  let Coef19 := at4 m 1 0 * at4 m 2 2 - at4 m 2 0 * at4 m 1 2 in
  let Coef20 := at4 m 2 0 * at4 m 3 1 - at4 m 3 0 * at4 m 2 1 in
  let Coef22 := at4 m 1 0 * at4 m 3 1 - at4 m 3 0 * at4 m 1 1 in
  let Coef23 := at4 m 1 0 * at4 m 2 1 - at4 m 2 0 * at4 m 1 1 in
  let Fac0 := V4 Coef00 Coef00 Coef02 Coef03 in
  let Fac1 := V4 Coef04 Coef04 Coef06 Coef07 in
  let Fac2 := V4 Coef08 Coef08 Coef10 Coef11 in
  let Fac3 := V4 Coef12 Coef12 Coef14 Coef15 in
  let Fac4 := V4 Coef16 Coef16 Coef18 Coef19 in
  let Fac5 := V4 Coef20 Coef20 Coef22 Coef23 in
  let Vec0 := V4 (at4 m 1 0) (at4 m 0 0) (at4 m 0 0) (at4 m 0 0) in
  let Vec1 := V4 (at4 m 1 1) (at4 m 0 1) (at4 m 0 1) (at4 m 0 1) in
  let Vec2 := V4 (at4 m 1 2) (at4 m 0 2) (at4 m 0 2) (at4 m 0 2) in
  let Vec3 := V4 (at4 m 1 3) (at4 m 0 3) (at4 m 0 3) (at4 m 0 3) in
  let Inv0 := vec4_add S (vec4_sub S (vec4_mul S Vec1 Fac0) (vec4_mul S Vec2 Fac1)) (vec4_mul S Vec3 Fac2) in
  let Inv1 := vec4_add S (vec4_sub S (vec4_mul S Vec0 Fac0) (vec4_mul S Vec2 Fac3)) (vec4_mul S Vec3 Fac4) in
  let Inv2 := vec4_add S (vec4_sub S (vec4_mul S Vec0 Fac1) (vec4_mul S Vec1 Fac3)) (vec4_mul S Vec3 Fac5) in
  let Inv3 := vec4_add S (vec4_sub S (vec4_mul S Vec0 Fac2) (vec4_mul S Vec1 Fac4)) (vec4_mul S Vec2 Fac5) in
  let SignA := V4 (sofZ 1%Z) (sofZ (-1)%Z) (sofZ 1%Z) (sofZ (-1)%Z) : vec4 S in
  let SignB := V4 (sofZ (-1)%Z) (sofZ 1%Z) (sofZ (-1)%Z) (sofZ 1%Z) : vec4 S in
  let inverse := M4 (vec4_mul S Inv0 SignA) (vec4_mul S Inv1 SignB) (vec4_mul S Inv2 SignA) (vec4_mul S Inv3 SignB) in
  let Row0 := V4 (at4 inverse 0 0) (at4 inverse 1 0) (at4 inverse 2 0) (at4 inverse 3 0) in
  let Dot0 := vec4_mul S (col4 m 0) Row0 in
  let Dot1 := (x4 Dot0 + y4 Dot0) + (z4 Dot0 + w4 Dot0) in
  let oneOverDeterminant := f1 / Dot1 in
  mat4_mul_sc S inverse oneOverDeterminant.
(** matrix.cpp 206-214 *)
Definition adjugate2 (m : mat2 S) : mat2 S :=
  mat2_el S (at2 m 1 1) (- at2 m 0 1) (- at2 m 1 0) (at2 m 0 0).
(** matrix.cpp 217-231 *)
Definition adjugate3 (m : mat3 S) : mat3 S :=
  M3
    (V3 ((at3 m 1 1 * at3 m 2 2 - at3 m 2 1 * at3 m 1 2))
        (- (at3 m 0 1 * at3 m 2 2 - at3 m 2 1 * at3 m 0 2))
        ((at3 m 0 1 * at3 m 1 2 - at3 m 1 1 * at3 m 0 2)))
    (V3 (- (at3 m 1 0 * at3 m 2 2 - at3 m 2 0 * at3 m 1 2))
        ((at3 m 0 0 * at3 m 2 2 - at3 m 2 0 * at3 m 0 2))
        (- (at3 m 0 0 * at3 m 1 2 - at3 m 1 0 * at3 m 0 2)))
    (V3 ((at3 m 1 0 * at3 m 2 1 - at3 m 2 0 * at3 m 1 1))
        (- (at3 m 0 0 * at3 m 2 1 - at3 m 2 0 * at3 m 0 1))
        ((at3 m 0 0 * at3 m 1 1 - at3 m 1 0 * at3 m 0 1))).
(** matrix.cpp 233-281 *)
Definition adjugate4 (m : mat4 S) : mat4 S :=
  let Coef00 := at4 m 2 2 * at4 m 3 3 - at4 m 3 2 * at4 m 2 3 in
  let Coef02 := at4 m 1 2 * at4 m 3 3 - at4 m 3 2 * at4 m 1 3 in
  let Coef03 := at4 m 1 2 * at4 m 2 3 - at4 m 2 2 * at4 m 1 3 in
  let Coef04 := at4 m 2 1 * at4 m 3 3 - at4 m 3 1 * at4 m 2 3 in
  let Coef06 := at4 m 1 1 * at4 m 3 3 - at4 m 3 1 * at4 m 1 3 in
  let Coef07 := at4 m 1 1 * at4 m 2 3 - at4 m 2 1 * at4 m 1 3 in
  let Coef08 := at4 m 2 1 * at4 m 3 2 - at4 m 3 1 * at4 m 2 2 in
  let Coef10 := at4 m 1 1 * at4 m 3 2 - at4 m 3 1 * at4 m 1 2 in
  let Coef11 := at4 m 1 1 * at4 m 2 2 - at4 m 2 1 * at4 m 1 2 in
  let Coef12 := at4 m 2 0 * at4 m 3 3 - at4 m 3 0 * at4 m 2 3 in
  let Coef14 := at4 m 1 0 * at4 m 3 3 - at4 m 3 0 * at4 m 1 3 in
  let Coef15 := at4 m 1 0 * at4 m 2 3 - at4 m 2 0 * at4 m 1 3 in
  let Coef16 := at4 m 2 0 * at4 m 3 2 - at4 m 3 0 * at4 m 2 2 in
  let Coef18 := at4 m 1 0 * at4 m 3 2 - at4 m 3 0 * at4 m 1 2 in
  let Coef19 := at4 m 1 0 * at4 m 2 2 - at4 m 2 0 * at4 m 1 2 in
  let Coef20 := at4 m 2 0 * at4 m 3 1 - at4 m 3 0 * at4 m 2 1 in
  let Coef22 := at4 m 1 0 * at4 m 3 1 - at4 m 3 0 * at4 m 1 1 in
  let Coef23 := at4 m 1 0 * at4 m 2 1 - at4 m 2 0 * at4 m 1 1 in
  let Fac0 := V4 Coef00 Coef00 Coef02 Coef03 in
  let Fac1 := V4 Coef04 Coef04 Coef06 Coef07 in
  let Fac2 := V4 Coef08 Coef08 Coef10 Coef11 in
  let Fac3 := V4 Coef12 Coef12 Coef14 Coef15 in
  let Fac4 := V4 Coef16 Coef16 Coef18 Coef19 in
  let Fac5 := V4 Coef20 Coef20 Coef22 Coef23 in
  let Vec0 := V4 (at4 m 1 0) (at4 m 0 0) (at4 m 0 0) (at4 m 0 0) in
  let Vec1 := V4 (at4 m 1 1) (at4 m 0 1) (at4 m 0 1) (at4 m 0 1) in
  let Vec2 := V4 (at4 m 1 2) (at4 m 0 2) (at4 m 0 2) (at4 m 0 2) in
  let Vec3 := V4 (at4 m 1 3) (at4 m 0 3) (at4 m 0 3) (at4 m 0 3) in
  let Inv0 := vec4_add S (vec4_sub S (vec4_mul S Vec1 Fac0) (vec4_mul S Vec2 Fac1)) (vec4_mul S Vec3 Fac2) in
  let Inv1 := vec4_add S (vec4_sub S (vec4_mul S Vec0 Fac0) (vec4_mul S Vec2 Fac3)) (vec4_mul S Vec3 Fac4) in
  let Inv2 := vec4_add S (vec4_sub S (vec4_mul S Vec0 Fac1) (vec4_mul S Vec1 Fac3)) (vec4_mul S Vec3 Fac5) in
  let Inv3 := vec4_add S (vec4_sub S (vec4_mul S Vec0 Fac2) (vec4_mul S Vec1 Fac4)) (vec4_mul S Vec2 Fac5) in
  let SignA := V4 (sofZ 1%Z) (sofZ (-1)%Z) (sofZ 1%Z) (sofZ (-1)%Z) : vec4 S in
  let SignB := V4 (sofZ (-1)%Z) (sofZ 1%Z) (sofZ (-1)%Z) (sofZ 1%Z) : vec4 S in
  let inverse := M4 (vec4_mul S Inv0 SignA) (vec4_mul S Inv1 SignB) (vec4_mul S Inv2 SignA) (vec4_mul S Inv3 SignB) in
  inverse.
(** matrix.cpp 283-294 *)
Definition inverseTranspose2 (m : mat2 S) : mat2 S :=
  let Determinant := at2 m 0 0 * at2 m 1 1 - at2 m 1 0 * at2 m 0 1 in
  mat2_el S (at2 m 1 1 / Determinant)
            (- at2 m 0 1 / Determinant)
            (- at2 m 1 0 / Determinant)
            (at2 m 0 0 / Determinant).
(** matrix.cpp 296-314 *)
Definition inverseTranspose3 (m : mat3 S) : mat3 S :=
  let Determinant :=
      at3 m 0 0 * (at3 m 1 1 * at3 m 2 2 - at3 m 1 2 * at3 m 2 1)
      - at3 m 0 1 * (at3 m 1 0 * at3 m 2 2 - at3 m 1 2 * at3 m 2 0)
      + at3 m 0 2 * (at3 m 1 0 * at3 m 2 1 - at3 m 1 1 * at3 m 2 0) in
  let Inverse :=
  M3
    (V3 ((at3 m 1 1 * at3 m 2 2 - at3 m 2 1 * at3 m 1 2))
        (- (at3 m 1 0 * at3 m 2 2 - at3 m 2 0 * at3 m 1 2))
        ((at3 m 1 0 * at3 m 2 1 - at3 m 2 0 * at3 m 1 1)))
    (V3 (- (at3 m 0 1 * at3 m 2 2 - at3 m 2 1 * at3 m 0 2))
        ((at3 m 0 0 * at3 m 2 2 - at3 m 2 0 * at3 m 0 2))
        (- (at3 m 0 0 * at3 m 2 1 - at3 m 2 0 * at3 m 0 1)))
    (V3 ((at3 m 0 1 * at3 m 1 2 - at3 m 1 1 * at3 m 0 2))
        (- (at3 m 0 0 * at3 m 1 2 - at3 m 1 0 * at3 m 0 2))
        ((at3 m 0 0 * at3 m 1 1 - at3 m 1 0 * at3 m 0 1))) in
  mat3_div_sc S Inverse Determinant.
(** matrix.cpp 316-366 *)
Definition inverseTranspose4 (m : mat4 S) : mat4 S :=
  let SubFactor00 := at4 m 2 2 * at4 m 3 3 - at4 m 3 2 * at4 m 2 3 in
  let SubFactor01 := at4 m 2 1 * at4 m 3 3 - at4 m 3 1 * at4 m 2 3 in
  let SubFactor02 := at4 m 2 1 * at4 m 3 2 - at4 m 3 1 * at4 m 2 2 in
  let SubFactor03 := at4 m 2 0 * at4 m 3 3 - at4 m 3 0 * at4 m 2 3 in
  let SubFactor04 := at4 m 2 0 * at4 m 3 2 - at4 m 3 0 * at4 m 2 2 in
  let SubFactor05 := at4 m 2 0 * at4 m 3 1 - at4 m 3 0 * at4 m 2 1 in
  let SubFactor06 := at4 m 1 2 * at4 m 3 3 - at4 m 3 2 * at4 m 1 3 in
  let SubFactor07 := at4 m 1 1 * at4 m 3 3 - at4 m 3 1 * at4 m 1 3 in
  let SubFactor08 := at4 m 1 1 * at4 m 3 2 - at4 m 3 1 * at4 m 1 2 in
  let SubFactor09 := at4 m 1 0 * at4 m 3 3 - at4 m 3 0 * at4 m 1 3 in
  let SubFactor10 := at4 m 1 0 * at4 m 3 2 - at4 m 3 0 * at4 m 1 2 in
  let SubFactor11 := at4 m 1 1 * at4 m 3 3 - at4 m 3 1 * at4 m 1 3 in
  let SubFactor12 := at4 m 1 0 * at4 m 3 1 - at4 m 3 0 * at4 m 1 1 in
  let SubFactor13 := at4 m 1 2 * at4 m 2 3 - at4 m 2 2 * at4 m 1 3 in
  let SubFactor14 := at4 m 1 1 * at4 m 2 3 - at4 m 2 1 * at4 m 1 3 in
  let SubFactor15 := at4 m 1 1 * at4 m 2 2 - at4 m 2 1 * at4 m 1 2 in
  let SubFactor16 := at4 m 1 0 * at4 m 2 3 - at4 m 2 0 * at4 m 1 3 in
  let SubFactor17 := at4 m 1 0 * at4 m 2 2 - at4 m 2 0 * at4 m 1 2 in
  let SubFactor18 := at4 m 1 0 * at4 m 2 1 - at4 m 2 0 * at4 m 1 1 in
  let Inverse :=
  M4
    (V4 ((at4 m 1 1 * SubFactor00 - at4 m 1 2 * SubFactor01 + at4 m 1 3 * SubFactor02))
        (- (at4 m 1 0 * SubFactor00 - at4 m 1 2 * SubFactor03 + at4 m 1 3 * SubFactor04))
        ((at4 m 1 0 * SubFactor01 - at4 m 1 1 * SubFactor03 + at4 m 1 3 * SubFactor05))
        (- (at4 m 1 0 * SubFactor02 - at4 m 1 1 * SubFactor04 + at4 m 1 2 * SubFactor05)))
    (V4 (- (at4 m 0 1 * SubFactor00 - at4 m 0 2 * SubFactor01 + at4 m 0 3 * SubFactor02))
        ((at4 m 0 0 * SubFactor00 - at4 m 0 2 * SubFactor03 + at4 m 0 3 * SubFactor04))
        (- (at4 m 0 0 * SubFactor01 - at4 m 0 1 * SubFactor03 + at4 m 0 3 * SubFactor05))
        ((at4 m 0 0 * SubFactor02 - at4 m 0 1 * SubFactor04 + at4 m 0 2 * SubFactor05)))
    (V4 ((at4 m 0 1 * SubFactor06 - at4 m 0 2 * SubFactor07 + at4 m 0 3 * SubFactor08))
        (- (at4 m 0 0 * SubFactor06 - at4 m 0 2 * SubFactor09 + at4 m 0 3 * SubFactor10))
        ((at4 m 0 0 * SubFactor11 - at4 m 0 1 * SubFactor09 + at4 m 0 3 * SubFactor12))
        (- (at4 m 0 0 * SubFactor08 - at4 m 0 1 * SubFactor10 + at4 m 0 2 * SubFactor12)))
    (V4 (- (at4 m 0 1 * SubFactor13 - at4 m 0 2 * SubFactor14 + at4 m 0 3 * SubFactor15))
        ((at4 m 0 0 * SubFactor13 - at4 m 0 2 * SubFactor16 + at4 m 0 3 * SubFactor17))
        (- (at4 m 0 0 * SubFactor14 - at4 m 0 1 * SubFactor16 + at4 m 0 3 * SubFactor18))
        ((at4 m 0 0 * SubFactor15 - at4 m 0 1 * SubFactor17 + at4 m 0 2 * SubFactor18))) in
  let Determinant :=
      at4 m 0 0 * at4 Inverse 0 0
      + at4 m 0 1 * at4 Inverse 0 1
      + at4 m 0 2 * at4 Inverse 0 2
      + at4 m 0 3 * at4 Inverse 0 3 in
  mat4_div_sc S Inverse Determinant.
(** matrix.cpp 368-376 *)
Definition adjugateTranspose2 (m : mat2 S) : mat2 S :=
  mat2_el S (at2 m 1 1) (- at2 m 0 1) (- at2 m 1 0) (at2 m 0 0).
(** matrix.cpp 378-391 *)
Definition adjugateTranspose3 (m : mat3 S) : mat3 S :=
  M3
    (V3 ((at3 m 1 1 * at3 m 2 2 - at3 m 2 1 * at3 m 1 2))
        (- (at3 m 1 0 * at3 m 2 2 - at3 m 2 0 * at3 m 1 2))
        ((at3 m 1 0 * at3 m 2 1 - at3 m 2 0 * at3 m 1 1)))
    (V3 (- (at3 m 0 1 * at3 m 2 2 - at3 m 2 1 * at3 m 0 2))
        ((at3 m 0 0 * at3 m 2 2 - at3 m 2 0 * at3 m 0 2))
        (- (at3 m 0 0 * at3 m 2 1 - at3 m 2 0 * at3 m 0 1)))
    (V3 ((at3 m 0 1 * at3 m 1 2 - at3 m 1 1 * at3 m 0 2))
        (- (at3 m 0 0 * at3 m 1 2 - at3 m 1 0 * at3 m 0 2))
        ((at3 m 0 0 * at3 m 1 1 - at3 m 1 0 * at3 m 0 1))).
(** matrix.cpp 393-437 *)
Definition adjugateTranspose4 (m : mat4 S) : mat4 S :=
  let SubFactor00 := at4 m 2 2 * at4 m 3 3 - at4 m 3 2 * at4 m 2 3 in
  let SubFactor01 := at4 m 2 1 * at4 m 3 3 - at4 m 3 1 * at4 m 2 3 in
  let SubFactor02 := at4 m 2 1 * at4 m 3 2 - at4 m 3 1 * at4 m 2 2 in
  let SubFactor03 := at4 m 2 0 * at4 m 3 3 - at4 m 3 0 * at4 m 2 3 in
  let SubFactor04 := at4 m 2 0 * at4 m 3 2 - at4 m 3 0 * at4 m 2 2 in
  let SubFactor05 := at4 m 2 0 * at4 m 3 1 - at4 m 3 0 * at4 m 2 1 in
  let SubFactor06 := at4 m 1 2 * at4 m 3 3 - at4 m 3 2 * at4 m 1 3 in
  let SubFactor07 := at4 m 1 1 * at4 m 3 3 - at4 m 3 1 * at4 m 1 3 in
  let SubFactor08 := at4 m 1 1 * at4 m 3 2 - at4 m 3 1 * at4 m 1 2 in
  let SubFactor09 := at4 m 1 0 * at4 m 3 3 - at4 m 3 0 * at4 m 1 3 in
  let SubFactor10 := at4 m 1 0 * at4 m 3 2 - at4 m 3 0 * at4 m 1 2 in
  let SubFactor11 := at4 m 1 1 * at4 m 3 3 - at4 m 3 1 * at4 m 1 3 in
  let SubFactor12 := at4 m 1 0 * at4 m 3 1 - at4 m 3 0 * at4 m 1 1 in
  let SubFactor13 := at4 m 1 2 * at4 m 2 3 - at4 m 2 2 * at4 m 1 3 in
  let SubFactor14 := at4 m 1 1 * at4 m 2 3 - at4 m 2 1 * at4 m 1 3 in
  let SubFactor15 := at4 m 1 1 * at4 m 2 2 - at4 m 2 1 * at4 m 1 2 in
  let SubFactor16 := at4 m 1 0 * at4 m 2 3 - at4 m 2 0 * at4 m 1 3 in
  let SubFactor17 := at4 m 1 0 * at4 m 2 2 - at4 m 2 0 * at4 m 1 2 in
  let SubFactor18 := at4 m 1 0 * at4 m 2 1 - at4 m 2 0 * at4 m 1 1 in
  M4
    (V4 ((at4 m 1 1 * SubFactor00 - at4 m 1 2 * SubFactor01 + at4 m 1 3 * SubFactor02))
        (- (at4 m 1 0 * SubFactor00 - at4 m 1 2 * SubFactor03 + at4 m 1 3 * SubFactor04))
        ((at4 m 1 0 * SubFactor01 - at4 m 1 1 * SubFactor03 + at4 m 1 3 * SubFactor05))
        (- (at4 m 1 0 * SubFactor02 - at4 m 1 1 * SubFactor04 + at4 m 1 2 * SubFactor05)))
    (V4 (- (at4 m 0 1 * SubFactor00 - at4 m 0 2 * SubFactor01 + at4 m 0 3 * SubFactor02))
        ((at4 m 0 0 * SubFactor00 - at4 m 0 2 * SubFactor03 + at4 m 0 3 * SubFactor04))
        (- (at4 m 0 0 * SubFactor01 - at4 m 0 1 * SubFactor03 + at4 m 0 3 * SubFactor05))
        ((at4 m 0 0 * SubFactor02 - at4 m 0 1 * SubFactor04 + at4 m 0 2 * SubFactor05)))
    (V4 ((at4 m 0 1 * SubFactor06 - at4 m 0 2 * SubFactor07 + at4 m 0 3 * SubFactor08))
        (- (at4 m 0 0 * SubFactor06 - at4 m 0 2 * SubFactor09 + at4 m 0 3 * SubFactor10))
        ((at4 m 0 0 * SubFactor11 - at4 m 0 1 * SubFactor09 + at4 m 0 3 * SubFactor12))
        (- (at4 m 0 0 * SubFactor08 - at4 m 0 1 * SubFactor10 + at4 m 0 2 * SubFactor12)))
    (V4 (- (at4 m 0 1 * SubFactor13 - at4 m 0 2 * SubFactor14 + at4 m 0 3 * SubFactor15))
        ((at4 m 0 0 * SubFactor13 - at4 m 0 2 * SubFactor16 + at4 m 0 3 * SubFactor17))
        (- (at4 m 0 0 * SubFactor14 - at4 m 0 1 * SubFactor16 + at4 m 0 3 * SubFactor18))
        ((at4 m 0 0 * SubFactor15 - at4 m 0 1 * SubFactor17 + at4 m 0 2 * SubFactor18))).

(** ** Division *)

(** mat2.cpp 82-85: mat2 / mat2 *)
Definition mat2_div (first second : mat2 S) : mat2 S := mat2_mul S first (inverse2 second).
(** mat2.cpp 124-127: mat2 / vec2 *)
Definition mat2_div_vec (mat : mat2 S) (vec : vec2 S) : vec2 S := mat2_mul_vec S (inverse2 mat) vec.
(** mat2.cpp 129-132: vec2 / mat2 *)
Definition vec_div_mat2 (vec : vec2 S) (mat : mat2 S) : vec2 S := vec_mul_mat2 S vec (inverse2 mat).
(** mat2.cpp 149-152: operator/= *)
Definition mat2_div_assign (rd : mat2 S -> mat2 S) (self : mat2 S) : mat2 S := mat2_div self (rd self).
(** mat3.cpp 129-132: mat3 / mat3 *)
Definition mat3_div (first second : mat3 S) : mat3 S := mat3_mul S first (inverse3 second).
(** mat3.cpp 208-211: mat3 / vec3 *)
Definition mat3_div_vec (mat : mat3 S) (vec : vec3 S) : vec3 S := mat3_mul_vec S (inverse3 mat) vec.
(** mat3.cpp 213-216: vec3 / mat3 *)
Definition vec_div_mat3 (vec : vec3 S) (mat : mat3 S) : vec3 S := vec_mul_mat3 S vec (inverse3 mat).
(** mat3.cpp 189-192: operator/= *)
Definition mat3_div_assign (rd : mat3 S -> mat3 S) (self : mat3 S) : mat3 S := mat3_div self (rd self).
(** mat4.cpp 108-111: mat4 / mat4 *)
Definition mat4_div (first second : mat4 S) : mat4 S := mat4_mul S first (inverse4 second).
(** mat4.cpp 203-206: mat4 / vec4 *)
Definition mat4_div_vec (mat : mat4 S) (vec : vec4 S) : vec4 S := mat4_mul_vec S (inverse4 mat) vec.
(** mat4.cpp 208-211: vec4 / mat4 *)
Definition vec_div_mat4 (vec : vec4 S) (mat : mat4 S) : vec4 S := vec_mul_mat4 S vec (inverse4 mat).
(** mat4.cpp 162-165: operator/= *)
Definition mat4_div_assign (rd : mat4 S -> mat4 S) (self : mat4 S) : mat4 S := mat4_div self (rd self).

End Matrix.
