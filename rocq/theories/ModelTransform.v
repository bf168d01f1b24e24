(** * src/matrix_transform.cpp *)
From Coq Require Import ZArith NArith Bool List.
From Verif Require Import Scalar Outcome Types ModelVec ModelCommon ModelQuat ModelExp ModelTrig
  ModelConst ModelGeom ModelMat.
Local Open Scope outcome_scope.
Local Open Scope scalar_scope.

(** [m[i][j] = a] with literal in-range indices *)
Definition mset4 {A} (m : mat4 A) (i j : nat) (a : A) : mat4 A :=
  match i with
  | 0%nat => M4 (set4 (m4c0 m) j a) (m4c1 m) (m4c2 m) (m4c3 m)
  | 1%nat => M4 (m4c0 m) (set4 (m4c1 m) j a) (m4c2 m) (m4c3 m)
  | 2%nat => M4 (m4c0 m) (m4c1 m) (set4 (m4c2 m) j a) (m4c3 m)
  | _ => M4 (m4c0 m) (m4c1 m) (m4c2 m) (set4 (m4c3 m) j a)
  end.

Section Transform.
Variable S : Scalar.

(** matrix_transform.cpp 13-18 *)
Definition translate (m : mat4 S) (v : vec3 S) : mat4 S :=
  M4 (col4 m 0) (col4 m 1) (col4 m 2)
     (vec4_add S (vec4_add S (vec4_add S (vec4_mul_sc S (col4 m 0) (el3 v 0))
                                         (vec4_mul_sc S (col4 m 1) (el3 v 1)))
                             (vec4_mul_sc S (col4 m 2) (el3 v 2)))
                 (col4 m 3)).

(** matrix_transform.cpp 20-48 *)
Definition rotate4 (m : mat4 S) (angle : S) (v : vec3 S) : mat4 S :=
  let a := angle in
  let c := cos_f S a in
  let s := sin_f S a in
  let axis := normalize3 S v in
  let temp := sc_mul_vec3 S (f1 - c) axis in
  let Rotate :=
    M3 (V3 (c + el3 temp 0 * el3 axis 0)
           (el3 temp 0 * el3 axis 1 + s * el3 axis 2)
           (el3 temp 0 * el3 axis 2 - s * el3 axis 1))
       (V3 (el3 temp 1 * el3 axis 0 - s * el3 axis 2)
           (c + el3 temp 1 * el3 axis 1)
           (el3 temp 1 * el3 axis 2 + s * el3 axis 0))
       (V3 (el3 temp 2 * el3 axis 0 + s * el3 axis 1)
           (el3 temp 2 * el3 axis 1 - s * el3 axis 0)
           (c + el3 temp 2 * el3 axis 2)) in
  M4 (vec4_add S (vec4_add S (vec4_mul_sc S (col4 m 0) (at3 Rotate 0 0))
                             (vec4_mul_sc S (col4 m 1) (at3 Rotate 0 1)))
                 (vec4_mul_sc S (col4 m 2) (at3 Rotate 0 2)))
     (vec4_add S (vec4_add S (vec4_mul_sc S (col4 m 0) (at3 Rotate 1 0))
                             (vec4_mul_sc S (col4 m 1) (at3 Rotate 1 1)))
                 (vec4_mul_sc S (col4 m 2) (at3 Rotate 1 2)))
     (vec4_add S (vec4_add S (vec4_mul_sc S (col4 m 0) (at3 Rotate 2 0))
                             (vec4_mul_sc S (col4 m 1) (at3 Rotate 2 1)))
                 (vec4_mul_sc S (col4 m 2) (at3 Rotate 2 2)))
     (col4 m 3).

(** matrix_transform.cpp 50-58 *)
Definition scale (m : mat4 S) (v : vec3 S) : mat4 S :=
  M4 (vec4_mul_sc S (col4 m 0) (el3 v 0)) (vec4_mul_sc S (col4 m 1) (el3 v 1))
     (vec4_mul_sc S (col4 m 2) (el3 v 2)) (col4 m 3).

(** matrix_transform.cpp 60-80; [mat4 Result(1)] converts the int 1 *)
Definition lookAtRH (eye center up : vec3 S) : mat4 S :=
  let f := normalize3 S (vec3_sub S center eye) in
  let s := normalize3 S (cross S f up) in
  let u := cross S s f in
  let Result := mat4_f S (sofZ 1%Z) in
  let Result := mset4 Result 0 0 (x3 s) in
  let Result := mset4 Result 1 0 (y3 s) in
  let Result := mset4 Result 2 0 (z3 s) in
  let Result := mset4 Result 0 1 (x3 u) in
  let Result := mset4 Result 1 1 (y3 u) in
  let Result := mset4 Result 2 1 (z3 u) in
  let Result := mset4 Result 0 2 (- x3 f) in
  let Result := mset4 Result 1 2 (- y3 f) in
  let Result := mset4 Result 2 2 (- z3 f) in
  let Result := mset4 Result 3 0 (- dot3 S s eye) in
  let Result := mset4 Result 3 1 (- dot3 S u eye) in
  let Result := mset4 Result 3 2 (dot3 S f eye) in
  Result.

(** matrix_transform.cpp 82-102 *)
Definition lookAtLH (eye center up : vec3 S) : mat4 S :=
  let f := normalize3 S (vec3_sub S center eye) in
  let s := normalize3 S (cross S up f) in
  let u := cross S f s in
  let Result := mat4_f S (sofZ 1%Z) in
  let Result := mset4 Result 0 0 (x3 s) in
  let Result := mset4 Result 1 0 (y3 s) in
  let Result := mset4 Result 2 0 (z3 s) in
  let Result := mset4 Result 0 1 (x3 u) in
  let Result := mset4 Result 1 1 (y3 u) in
  let Result := mset4 Result 2 1 (z3 u) in
  let Result := mset4 Result 0 2 (x3 f) in
  let Result := mset4 Result 1 2 (y3 f) in
  let Result := mset4 Result 2 2 (z3 f) in
  let Result := mset4 Result 3 0 (- dot3 S s eye) in
  let Result := mset4 Result 3 1 (- dot3 S u eye) in
  let Result := mset4 Result 3 2 (- dot3 S f eye) in
  Result.

(** matrix_transform.cpp 104-113 *)
Definition ortho (left right bottom top : S) : mat4 S :=
  let Result := mat4_f S f1 in
  let Result := mset4 Result 0 0 (f2 / (right - left)) in
  let Result := mset4 Result 1 1 (f2 / (top - bottom)) in
  let Result := mset4 Result 2 2 (- f1) in
  let Result := mset4 Result 3 0 (- (right + left) / (right - left)) in
  let Result := mset4 Result 3 1 (- (top + bottom) / (top - bottom)) in
  Result.
(** matrix_transform.cpp 115-125 *)
Definition orthoLH_ZO (left right bottom top zNear zFar : S) : mat4 S :=
  let Result := mat4_f S f1 in
  let Result := mset4 Result 0 0 (f2 / (right - left)) in
  let Result := mset4 Result 1 1 (f2 / (top - bottom)) in
  let Result := mset4 Result 2 2 (f1 / (zFar - zNear)) in
  let Result := mset4 Result 3 0 (- (right + left) / (right - left)) in
  let Result := mset4 Result 3 1 (- (top + bottom) / (top - bottom)) in
  let Result := mset4 Result 3 2 (- zNear / (zFar - zNear)) in
  Result.
(** matrix_transform.cpp 127-137 *)
Definition orthoRH_ZO (left right bottom top zNear zFar : S) : mat4 S :=
  let Result := mat4_f S f1 in
  let Result := mset4 Result 0 0 (f2 / (right - left)) in
  let Result := mset4 Result 1 1 (f2 / (top - bottom)) in
  let Result := mset4 Result 2 2 (- f1 / (zFar - zNear)) in
  let Result := mset4 Result 3 0 (- (right + left) / (right - left)) in
  let Result := mset4 Result 3 1 (- (top + bottom) / (top - bottom)) in
  let Result := mset4 Result 3 2 (- zNear / (zFar - zNear)) in
  Result.
(** matrix_transform.cpp 139-149 *)
Definition orthoLH_NO (left right bottom top zNear zFar : S) : mat4 S :=
  let Result := mat4_f S f1 in
  let Result := mset4 Result 0 0 (f2 / (right - left)) in
  let Result := mset4 Result 1 1 (f2 / (top - bottom)) in
  let Result := mset4 Result 2 2 (f2 / (zFar - zNear)) in
  let Result := mset4 Result 3 0 (- (right + left) / (right - left)) in
  let Result := mset4 Result 3 1 (- (top + bottom) / (top - bottom)) in
  let Result := mset4 Result 3 2 (- (zFar + zNear) / (zFar - zNear)) in
  Result.
(** matrix_transform.cpp 151-161; the literals 1, 2 and -(2) are ints *)
Definition orthoRH_NO (left right bottom top zNear zFar : S) : mat4 S :=
  let Result := mat4_f S (sofZ 1%Z) in
  let Result := mset4 Result 0 0 (sofZ 2%Z / (right - left)) in
  let Result := mset4 Result 1 1 (sofZ 2%Z / (top - bottom)) in
  let Result := mset4 Result 2 2 (sofZ (-2)%Z / (zFar - zNear)) in
  let Result := mset4 Result 3 0 (- (right + left) / (right - left)) in
  let Result := mset4 Result 3 1 (- (top + bottom) / (top - bottom)) in
  let Result := mset4 Result 3 2 (- (zFar + zNear) / (zFar - zNear)) in
  Result.

(** matrix_transform.cpp 163-176 *)
Definition perspectiveRH_ZO (b : build) (fovy aspect zNear zFar : S) : outcome (mat4 S) :=
  do u <- cassert b (abs_f S (aspect - c_epsilon S) >? f0);
  let tanHalfFovy := tan_f S (fovy * f0_5) in
  let Result := mat4_f S f0 in
  let Result := mset4 Result 0 0 (f1 / (aspect * tanHalfFovy)) in
  let Result := mset4 Result 1 1 (f1 / tanHalfFovy) in
  let Result := mset4 Result 2 2 (zFar / (zNear - zFar)) in
  let Result := mset4 Result 2 3 (- f1) in
  let Result := mset4 Result 3 2 (- (zFar * zNear) / (zFar - zNear)) in
  Ret Result.
(** matrix_transform.cpp 178-191 *)
Definition perspectiveRH_NO (b : build) (fovy aspect zNear zFar : S) : outcome (mat4 S) :=
  do u <- cassert b (abs_f S (aspect - c_epsilon S) >? f0);
  let tanHalfFovy := tan_f S (fovy * f0_5) in
  let Result := mat4_f S f0 in
  let Result := mset4 Result 0 0 (f1 / (aspect * tanHalfFovy)) in
  let Result := mset4 Result 1 1 (f1 / tanHalfFovy) in
  let Result := mset4 Result 2 2 (- (zFar + zNear) / (zFar - zNear)) in
  let Result := mset4 Result 2 3 (- f1) in
  let Result := mset4 Result 3 2 (- (f2 * zFar * zNear) / (zFar - zNear)) in
  Ret Result.
(** matrix_transform.cpp 193-206 *)
Definition perspectiveLH_ZO (b : build) (fovy aspect zNear zFar : S) : outcome (mat4 S) :=
  do u <- cassert b (abs_f S (aspect - c_epsilon S) >? f0);
  let tanHalfFovy := tan_f S (fovy * f0_5) in
  let Result := mat4_f S f0 in
  let Result := mset4 Result 0 0 (f1 / (aspect * tanHalfFovy)) in
  let Result := mset4 Result 1 1 (f1 / tanHalfFovy) in
  let Result := mset4 Result 2 2 (zFar / (zFar - zNear)) in
  let Result := mset4 Result 2 3 f1 in
  let Result := mset4 Result 3 2 (- (zFar * zNear) / (zFar - zNear)) in
  Ret Result.
(** matrix_transform.cpp 208-221 *)
Definition perspectiveLH_NO (b : build) (fovy aspect zNear zFar : S) : outcome (mat4 S) :=
  do u <- cassert b (abs_f S (aspect - c_epsilon S) >? f0);
  let tanHalfFovy := tan_f S (fovy * f0_5) in
  let Result := mat4_f S f0 in
  let Result := mset4 Result 0 0 (f1 / (aspect * tanHalfFovy)) in
  let Result := mset4 Result 1 1 (f1 / tanHalfFovy) in
  let Result := mset4 Result 2 2 ((zFar + zNear) / (zFar - zNear)) in
  let Result := mset4 Result 2 3 f1 in
  let Result := mset4 Result 3 2 (- (f2 * zFar * zNear) / (zFar - zNear)) in
  Ret Result.

(** matrix_transform.cpp 271: [static int Next[3] = {1, 2, 0}] *)
Definition Next (i : nat) : nat := match i with 0 => 1 | 1 => 2 | _ => 0 end%nat.

(** matrix_transform.cpp 261-285: the orientation of the orthonormal columns
    [Row]; every member of [orientation] is written, so its old value is
    irrelevant and a default quaternion stands for it *)
Definition orientation_of (Row : mat3 S) : quat S :=
  let orientation := quat_default S in
  let trace := x3 (col3 Row 0) + y3 (col3 Row 1) + z3 (col3 Row 2) in
  if trace >? f0 then
    let root := sqrt_f S (trace + f1) in
    let orientation := qset orientation 3 (f0_5 * root) in
    let root := f0_5 / root in
    let orientation := qset orientation 0 (root * (z3 (col3 Row 1) - y3 (col3 Row 2))) in
    let orientation := qset orientation 1 (root * (x3 (col3 Row 2) - z3 (col3 Row 0))) in
    qset orientation 2 (root * (y3 (col3 Row 0) - x3 (col3 Row 1)))
  else
    let i := 0%nat in
    let i := if y3 (col3 Row 1) >? x3 (col3 Row 0) then 1%nat else i in
    let i := if z3 (col3 Row 2) >? at3 Row i i then 2%nat else i in
    let j := Next i in
    let k := Next j in
    let root := sqrt_f S (at3 Row i i - at3 Row j j - at3 Row k k + f1) in
    let orientation := qset orientation i (f0_5 * root) in
    let root := f0_5 / root in
    let orientation := qset orientation j (root * (at3 Row i j + at3 Row j i)) in
    let orientation := qset orientation k (root * (at3 Row i k + at3 Row k i)) in
    qset orientation 3 (root * (at3 Row j k - at3 Row k j)).

(** matrix_transform.cpp 223-286; the three out-parameters are returned as a
    triple (scale, orientation, translation).  Simplification: they are assumed to
    be distinct objects, none of which overlaps [model_mat]. *)
Definition decompose_orthogonal (model_mat : mat4 S) : vec3 S * quat S * vec3 S :=
  let translation := V3 (x4 (col4 model_mat 3)) (y4 (col4 model_mat 3)) (z4 (col4 model_mat 3)) in
  let Row0 := V3 (at4 model_mat 0 0) (at4 model_mat 0 1) (at4 model_mat 0 2) in
  let Row1 := V3 (at4 model_mat 1 0) (at4 model_mat 1 1) (at4 model_mat 1 2) in
  let Row2 := V3 (at4 model_mat 2 0) (at4 model_mat 2 1) (at4 model_mat 2 2) in
  let scale_x := length3 S Row0 in
  let Row0 := vec3_div_assign_sc S (fun _ => scale_x) Row0 in
  let scale_y := length3 S Row1 in
  let Row1 := vec3_div_assign_sc S (fun _ => scale_y) Row1 in
  let scale_z := length3 S Row2 in
  let Row2 := vec3_div_assign_sc S (fun _ => scale_z) Row2 in
  let sc := V3 scale_x scale_y scale_z in
  let '(sc, Row0, Row1, Row2) :=
    if dot3 S Row0 (cross S Row1 Row2) <? sofZ 0%Z
    then (V3 (x3 sc * - f1) (y3 sc * - f1) (z3 sc * - f1),
          vec3_mul_assign_sc S (fun _ => - f1) Row0,
          vec3_mul_assign_sc S (fun _ => - f1) Row1,
          vec3_mul_assign_sc S (fun _ => - f1) Row2)
    else (sc, Row0, Row1, Row2) in
  (sc, orientation_of (M3 Row0 Row1 Row2), translation).

End Transform.
