(** * src/quaternion.cpp, and the parts of src/quat.cpp that use the geometric functions *)
From Coq Require Import ZArith NArith Bool List.
From Verif Require Import Scalar Outcome Types ModelVec ModelCommon ModelQuat ModelExp ModelTrig
  ModelConst ModelGeom ModelMat.
Local Open Scope outcome_scope.
Local Open Scope scalar_scope.

Section Quaternion.
Variable S : Scalar.

(** quat.cpp 52-75: quat(vec3 u, vec3 v), the rotation taking u to v *)
Definition quat_from_to (u v : vec3 S) : quat S :=
  let norm_u_norm_v := sqrt_f S (dot3 S u u * dot3 S v v) in
  let real_part := norm_u_norm_v + dot3 S u v in
  let '(real_part, w_) :=
    if real_part <? slit 1%Z (-6)%Z * norm_u_norm_v
    then (f0, if abs_f S (x3 u) >? abs_f S (z3 u) then V3 (- y3 u) (x3 u) f0
              else V3 f0 (- z3 u) (y3 u))
    else (real_part, cross S u v) in
  normalize_q S (quat_wxyz S real_part (x3 w_) (y3 w_) (z3 w_)).

(** quat.cpp 77-86: quat(vec3 eulerAngles) *)
Definition quat_euler (eulerAngles : vec3 S) : quat S :=
  let c := cos3 S (vec3_mul_sc S eulerAngles f0_5) in
  let s := sin3 S (vec3_mul_sc S eulerAngles f0_5) in
  Quat (x3 s * y3 c * z3 c - x3 c * y3 s * z3 s)
       (x3 c * y3 s * z3 c + x3 s * y3 c * z3 s)
       (x3 c * y3 c * z3 s - x3 s * y3 s * z3 c)
       (x3 c * y3 c * z3 c + x3 s * y3 s * z3 s).

(** quat.cpp 255-260: quat * vec3 *)
Definition quat_mul_vec (q : quat S) (v : vec3 S) : vec3 S :=
  let qv := V3 (qx q) (qy q) (qz q) in
  let t := sc_mul_vec3 S f2 (cross S qv v) in
  vec3_add S (vec3_add S v (sc_mul_vec3 S (qw q) t)) (cross S qv t).

(** quaternion.cpp 141-147 *)
Definition conjugate (x : quat S) : quat S := quat_ctor S (qw x) (- qx x) (- qy x) (- qz x).
(** quaternion.cpp 149-152 *)
Definition inverse_q (x : quat S) : quat S := quat_div_sc S (conjugate x) (dot_q S x x).

(** quat.cpp 262-265: vec3 * quat *)
Definition vec_mul_quat (v : vec3 S) (q : quat S) : vec3 S := quat_mul_vec (inverse_q q) v.

(** quaternion.cpp 19-28 *)
Definition pitch (q : quat S) : S :=
  let y := f2 * (qy q * qz q + qw q * qx q) in
  let x := qw q * qw q - qx q * qx q - qy q * qy q + qz q * qz q in
  if (x =? f0) && (y =? f0) then f2 * atan2_f S (qx q) (qw q) else atan2_f S y x.
(** quaternion.cpp 30-33 *)
Definition yaw (q : quat S) : S :=
  asin_f S (clamp_f S (- f2 * (qx q * qz q - qw q * qy q)) (- f1) f1).
(** quaternion.cpp 35-38 *)
Definition roll (q : quat S) : S :=
  atan2_f S (f2 * (qx q * qy q + qw q * qz q))
            (qw q * qw q + qx q * qx q - qy q * qy q - qz q * qz q).
(** quaternion.cpp 12-17 *)
Definition eulerAngles (x : quat S) : vec3 S := V3 (pitch x) (yaw x) (roll x).

(** quaternion.cpp 40-65; every element of [Result] is written once *)
Definition mat3_cast (q : quat S) : mat3 S :=
  let qxx := qx q * qx q in
  let qyy := qy q * qy q in
  let qzz := qz q * qz q in
  let qxz := qx q * qz q in
  let qxy := qx q * qy q in
  let qyz := qy q * qz q in
  let qwx := qw q * qx q in
  let qwy := qw q * qy q in
  let qwz := qw q * qz q in
  M3 (V3 (f1 - f2 * (qyy + qzz)) (f2 * (qxy + qwz)) (f2 * (qxz - qwy)))
     (V3 (f2 * (qxy - qwz)) (f1 - f2 * (qxx + qzz)) (f2 * (qyz + qwx)))
     (V3 (f2 * (qxz + qwy)) (f2 * (qyz - qwx)) (f1 - f2 * (qxx + qyy))).
(** quaternion.cpp 67-70 *)
Definition mat4_cast (q : quat S) : mat4 S := mat4_of_mat3 S (mat3_cast q).

(** quaternion.cpp 72-112: quat_cast(mat3); [biggestIndex] stays in 0..3, so the
    final [return quat()] is the last case *)
Definition quat_cast3 (m : mat3 S) : quat S :=
  let fourXSquaredMinus1 := at3 m 0 0 - at3 m 1 1 - at3 m 2 2 in
  let fourYSquaredMinus1 := at3 m 1 1 - at3 m 0 0 - at3 m 2 2 in
  let fourZSquaredMinus1 := at3 m 2 2 - at3 m 0 0 - at3 m 1 1 in
  let fourWSquaredMinus1 := at3 m 0 0 + at3 m 1 1 + at3 m 2 2 in
  let biggestIndex := 0%nat in
  let fourBiggestSquaredMinus1 := fourWSquaredMinus1 in
  let '(fourBiggestSquaredMinus1, biggestIndex) :=
    if fourXSquaredMinus1 >? fourBiggestSquaredMinus1
    then (fourXSquaredMinus1, 1%nat) else (fourBiggestSquaredMinus1, biggestIndex) in
  let '(fourBiggestSquaredMinus1, biggestIndex) :=
    if fourYSquaredMinus1 >? fourBiggestSquaredMinus1
    then (fourYSquaredMinus1, 2%nat) else (fourBiggestSquaredMinus1, biggestIndex) in
  let '(fourBiggestSquaredMinus1, biggestIndex) :=
    if fourZSquaredMinus1 >? fourBiggestSquaredMinus1
    then (fourZSquaredMinus1, 3%nat) else (fourBiggestSquaredMinus1, biggestIndex) in
  let biggestVal := sqrt_f S (fourBiggestSquaredMinus1 + f1) * f0_5 in
  let mult := f0_25 / biggestVal in
  match biggestIndex with
  | 0%nat => quat_wxyz S biggestVal
           ((at3 m 1 2 - at3 m 2 1) * mult) ((at3 m 2 0 - at3 m 0 2) * mult) ((at3 m 0 1 - at3 m 1 0) * mult)
  | 1%nat => quat_wxyz S ((at3 m 1 2 - at3 m 2 1) * mult)
           biggestVal ((at3 m 0 1 + at3 m 1 0) * mult) ((at3 m 2 0 + at3 m 0 2) * mult)
  | 2%nat => quat_wxyz S ((at3 m 2 0 - at3 m 0 2) * mult)
           ((at3 m 0 1 + at3 m 1 0) * mult) biggestVal ((at3 m 1 2 + at3 m 2 1) * mult)
  | 3%nat => quat_wxyz S ((at3 m 0 1 - at3 m 1 0) * mult)
           ((at3 m 2 0 + at3 m 0 2) * mult) ((at3 m 1 2 + at3 m 2 1) * mult) biggestVal
  | _ => quat_default S
  end.
(** quaternion.cpp 114-117: quat_cast(mat4) *)
Definition quat_cast4 (m : mat4 S) : quat S := quat_cast3 (mat3_of_mat4 S m).

(** quaternion.cpp 119-128 *)
Definition quatLookAtLH (direction up : vec3 S) : quat S :=
  let Result2 := direction in
  let Result0 := normalize3 S (cross S up Result2) in
  let Result1 := cross S Result2 Result0 in
  quat_cast3 (M3 Result0 Result1 Result2).
(** quaternion.cpp 130-139 *)
Definition quatLookAtRH (direction up : vec3 S) : quat S :=
  let Result2 := vec3_neg S direction in
  let Result0 := normalize3 S (cross S up Result2) in
  let Result1 := cross S Result2 Result0 in
  quat_cast3 (M3 Result0 Result1 Result2).

(** quaternion.cpp 154-161 *)
Definition lerp (b : build) (x y : quat S) (t : S) : outcome (quat S) :=
  do u0 <- cassert b (t >=? f0);
  do u1 <- cassert b (t <=? f1);
  Ret (quat_add S (quat_mul_sc S x (f1 - t)) (quat_mul_sc S y t)).
(** quaternion.cpp 163-166 *)
Definition nlerp (b : build) (x y : quat S) (t : S) : outcome (quat S) :=
  do r <- lerp b x y t;
  Ret (normalize_q S r).
(** quaternion.cpp 168-193 *)
Definition slerp (x y : quat S) (t : S) : quat S :=
  let z := y in
  let cosTheta := dot_q S x y in
  let '(z, cosTheta) :=
    if cosTheta <? f0 then (quat_neg S y, - cosTheta) else (z, cosTheta) in
  if cosTheta >? f1 - c_epsilon S
  then quat_wxyz S (mix_f S (qw x) (qw z) t) (mix_f S (qx x) (qx z) t)
                   (mix_f S (qy x) (qy z) t) (mix_f S (qz x) (qz z) t)
  else
    let angle := acos_f S cosTheta in
    quat_div_sc S
      (quat_add S (sc_mul_quat S (sin_f S ((f1 - t) * angle)) x)
                  (sc_mul_quat S (sin_f S (t * angle)) z))
      (sin_f S angle).

(** quaternion.cpp 195-203; [vec3(0, 0, 1)] converts ints *)
Definition axis (q : quat S) : vec3 S :=
  let tmp1 := f1 - qw q * qw q in
  if tmp1 <=? f0 then V3 (sofZ 0%Z) (sofZ 0%Z) (sofZ 1%Z)
  else
    let tmp2 := inversesqrt_f S tmp1 in
    V3 (qx q * tmp2) (qy q * tmp2) (qz q * tmp2).
(** quaternion.cpp 205-208 *)
Definition angle (q : quat S) : S := acos_f S (qw q) * f2.
(** quaternion.cpp 210-214 *)
Definition angleAxis (angle : S) (axis : vec3 S) : quat S :=
  let s := sin_f S (angle * f0_5) in
  quat_sv S (cos_f S (angle * f0_5)) (vec3_mul_sc S axis s).
(** quaternion.cpp 216-221 *)
Definition rotate_q (q : quat S) (angle : S) (axis : vec3 S) : quat S :=
  let norm_axis := normalize3 S axis in
  let rq := angleAxis angle norm_axis in
  quat_mul S q rq.

End Quaternion.
