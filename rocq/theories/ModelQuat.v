(** * src/quat.cpp: construction, access, arithmetic and comparison

    The constructors from two vectors and from Euler angles and the rotation of a
    vector need the geometric functions; they are in [ModelQuaternion].
    [*=], [+=] and [-=] take their argument by reference, so the argument is read
    at its value at each use (see [ModelVec] for [rd]). *)
From Coq Require Import ZArith NArith Bool List.
From Verif Require Import Scalar Outcome Types.
Local Open Scope outcome_scope.
Local Open Scope scalar_scope.

Section QuatBase.
Variable S : Scalar.

(** quat.cpp 16-21: quat() *)
Definition quat_default : quat S := Quat f0 f0 f0 f1.
(** quat.cpp 26-31: quat(w, x, y, z) *)
Definition quat_ctor (w x y z : S) : quat S := Quat x y z w.
(** quat.cpp 33-38: quat(float, vec3) *)
Definition quat_sv (s : S) (v : vec3 S) : quat S := Quat (x3 v) (y3 v) (z3 v) s.
(** quat.cpp 40-45: quat(vec3, float) *)
Definition quat_vs (v : vec3 S) (s : S) : quat S := Quat (x3 v) (y3 v) (z3 v) s.
(** quat.cpp 47-50: quat::wxyz *)
Definition quat_wxyz (w x y z : S) : quat S := quat_ctor w x y z.

(** quat.cpp 88-96: make_quat *)
Definition make_quat (b : build) (ptr : option (list S)) : outcome (quat S) :=
  do u <- assert_ptr b ptr;
  do p0 <- deref ptr 0;
  do p1 <- deref ptr 1;
  do p2 <- deref ptr 2;
  do p3 <- deref ptr 3;
  Ret (Quat p0 p1 p2 p3).

(** quat.cpp 98-124: operator[]; an index above 3 reaches [return w] when the
    assertion is compiled out *)
Definition quat_index (b : build) (q : quat S) (val : N) : outcome S :=
  do u <- cassert b (N.ltb val 4);
  if N.eqb val 0 then Ret (qx q)
  else if N.eqb val 1 then Ret (qy q)
  else if N.eqb val 2 then Ret (qz q)
  else Ret (qw q).
(** quat.cpp 98-110: [q[val] = a] through the returned reference *)
Definition quat_index_set (b : build) (q : quat S) (val : N) (a : S) : outcome (quat S) :=
  do u <- cassert b (N.ltb val 4);
  if N.eqb val 0 then Ret (qset q 0 a)
  else if N.eqb val 1 then Ret (qset q 1 a)
  else if N.eqb val 2 then Ret (qset q 2 a)
  else Ret (qset q 3 a).

(** quat.cpp 126-132: operator+=(const quat&) *)
Definition quat_add_assign (rd : quat S -> quat S) (self : quat S) : quat S :=
  let self := qset self 0 (qx self + qx (rd self)) in
  let self := qset self 1 (qy self + qy (rd self)) in
  let self := qset self 2 (qz self + qz (rd self)) in
  let self := qset self 3 (qw self + qw (rd self)) in
  self.
(** quat.cpp 134-140: operator-=(const quat&) *)
Definition quat_sub_assign (rd : quat S -> quat S) (self : quat S) : quat S :=
  let self := qset self 0 (qx self - qx (rd self)) in
  let self := qset self 1 (qy self - qy (rd self)) in
  let self := qset self 2 (qz self - qz (rd self)) in
  let self := qset self 3 (qw self - qw (rd self)) in
  self.
(** quat.cpp 142-158: operator*=(const quat&); no member is written before the
    last read of [q2] *)
Definition quat_mul_assign (rd : quat S -> quat S) (self : quat S) : quat S :=
  let q2 := rd self in
  let x := qx self in let y := qy self in let z := qz self in let w := qw self in
  let ww := (z + x) * (qx q2 + qy q2) in
  let yy := (w - y) * (qw q2 + qz q2) in
  let zz := (w + y) * (qw q2 - qz q2) in
  let xx := ww + yy + zz in
  let qq := f0_5 * (xx + (z - x) * (qx q2 - qy q2)) in
  let _w := qq - ww + (z - y) * (qy q2 - qz q2) in
  let _x := qq - xx + (x + w) * (qx q2 + qw q2) in
  let _y := qq - yy + (w - x) * (qy q2 + qz q2) in
  let _z := qq - zz + (z + y) * (qw q2 - qx q2) in
  Quat _x _y _z _w.
(** quat.cpp 160-166: operator*=(float); the scalar is passed by value *)
Definition quat_mul_assign_sc (rd : quat S -> S) (self : quat S) : quat S :=
  let scalar := rd self in
  let self := qset self 0 (qx self * scalar) in
  let self := qset self 1 (qy self * scalar) in
  let self := qset self 2 (qz self * scalar) in
  let self := qset self 3 (qw self * scalar) in
  self.
(** quat.cpp 168-174: operator/=(float) *)
Definition quat_div_assign_sc (rd : quat S -> S) (self : quat S) : quat S :=
  let scalar := rd self in
  let self := qset self 0 (qx self / scalar) in
  let self := qset self 1 (qy self / scalar) in
  let self := qset self 2 (qz self / scalar) in
  let self := qset self 3 (qw self / scalar) in
  self.

(** quat.cpp 176-182 *)
Definition quat_add (a b : quat S) : quat S :=
  quat_ctor (qw a + qw b) (qx a + qx b) (qy a + qy b) (qz a + qz b).
(** quat.cpp 184-190 *)
Definition quat_sub (a b : quat S) : quat S :=
  quat_ctor (qw a - qw b) (qx a - qx b) (qy a - qy b) (qz a - qz b).
(** quat.cpp 192-198: unary + *)
Definition quat_pos (a : quat S) : quat S := quat_ctor (qw a) (qx a) (qy a) (qz a).
(** quat.cpp 200-206: unary - *)
Definition quat_neg (a : quat S) : quat S := quat_ctor (- qw a) (- qx a) (- qy a) (- qz a).
(** quat.cpp 208-220: quat * quat *)
Definition quat_mul (q1 q2 : quat S) : quat S :=
  let ww := (qz q1 + qx q1) * (qx q2 + qy q2) in
  let yy := (qw q1 - qy q1) * (qw q2 + qz q2) in
  let zz := (qw q1 + qy q1) * (qw q2 - qz q2) in
  let xx := ww + yy + zz in
  let qq := f0_5 * (xx + (qz q1 - qx q1) * (qx q2 - qy q2)) in
  quat_ctor (qq - ww + (qz q1 - qy q1) * (qy q2 - qz q2))
            (qq - xx + (qx q1 + qw q1) * (qx q2 + qw q2))
            (qq - yy + (qw q1 - qx q1) * (qy q2 + qz q2))
            (qq - zz + (qz q1 + qy q1) * (qw q2 - qx q2)).
(** quat.cpp 222-228 *)
Definition quat_mul_sc (q : quat S) (s : S) : quat S :=
  quat_ctor (qw q * s) (qx q * s) (qy q * s) (qz q * s).
(** quat.cpp 230-236 *)
Definition sc_mul_quat (s : S) (q : quat S) : quat S :=
  quat_ctor (qw q * s) (qx q * s) (qy q * s) (qz q * s).
(** quat.cpp 238-244 *)
Definition sc_div_quat (s : S) (q : quat S) : quat S :=
  quat_ctor (s / qw q) (s / qx q) (s / qy q) (s / qz q).
(** quat.cpp 246-252 *)
Definition quat_div_sc (q : quat S) (s : S) : quat S :=
  quat_ctor (qw q / s) (qx q / s) (qy q / s) (qz q / s).
(** quat.cpp 268-271 *)
Definition quat_eq (first second : quat S) : bool :=
  (qx first =? qx second) && (qy first =? qy second) && (qz first =? qz second)
  && (qw first =? qw second).
(** quat.cpp 273-276 *)
Definition quat_ne (first second : quat S) : bool := negb (quat_eq first second).

End QuatBase.
