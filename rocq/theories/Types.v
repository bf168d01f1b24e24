(** * Data types of the library

    Storage order is the order of the fields.  [A] is the element type: a
    [Scalar] carrier for vec, mat and quat, [Z] for ivec, [bool] for bvec. *)
From Coq Require Import List ZArith.
Import ListNotations.

(** include/zcm/vec2.hpp 9-49, ivec2.hpp, bvec2.hpp: two consecutive elements. *)
Record vec2 (A : Type) : Type := V2 { x2 : A; y2 : A }.
(** include/zcm/vec3.hpp 10-87, ivec3.hpp, bvec3.hpp: three consecutive elements. *)
Record vec3 (A : Type) : Type := V3 { x3 : A; y3 : A; z3 : A }.
(** include/zcm/vec4.hpp 12-397, ivec4.hpp, bvec4.hpp: four consecutive elements. *)
Record vec4 (A : Type) : Type := V4 { x4 : A; y4 : A; z4 : A; w4 : A }.
(** include/zcm/quat.hpp 11-45: members x, y, z, w in this order. *)
Record quat (A : Type) : Type := Quat { qx : A; qy : A; qz : A; qw : A }.
(** include/zcm/mat2.hpp, mat3.hpp, mat4.hpp: [_columns], column vectors. *)
Record mat2 (A : Type) : Type := M2 { m2c0 : vec2 A; m2c1 : vec2 A }.
Record mat3 (A : Type) : Type := M3 { m3c0 : vec3 A; m3c1 : vec3 A; m3c2 : vec3 A }.
Record mat4 (A : Type) : Type :=
  M4 { m4c0 : vec4 A; m4c1 : vec4 A; m4c2 : vec4 A; m4c3 : vec4 A }.

Arguments V2 {A} _ _.
Arguments V3 {A} _ _ _.
Arguments V4 {A} _ _ _ _.
Arguments Quat {A} _ _ _ _.
Arguments M2 {A} _ _.
Arguments M3 {A} _ _ _.
Arguments M4 {A} _ _ _ _.
Arguments x2 {A} _. Arguments y2 {A} _.
Arguments x3 {A} _. Arguments y3 {A} _. Arguments z3 {A} _.
Arguments x4 {A} _. Arguments y4 {A} _. Arguments z4 {A} _. Arguments w4 {A} _.
Arguments qx {A} _. Arguments qy {A} _. Arguments qz {A} _. Arguments qw {A} _.
Arguments m2c0 {A} _. Arguments m2c1 {A} _.
Arguments m3c0 {A} _. Arguments m3c1 {A} _. Arguments m3c2 {A} _.
Arguments m4c0 {A} _. Arguments m4c1 {A} _. Arguments m4c2 {A} _. Arguments m4c3 {A} _.

(** [v[i]] with a literal in-range index inside the library's own code.  The
    checked, user-facing [operator[]] is modelled in [ModelVec], [ModelIVec],
    [ModelBVec], [ModelMat] and [ModelQuat]. *)
Definition el2 {A} (v : vec2 A) (i : nat) : A := match i with 0 => x2 v | _ => y2 v end.
Definition el3 {A} (v : vec3 A) (i : nat) : A :=
  match i with 0 => x3 v | 1 => y3 v | _ => z3 v end.
Definition el4 {A} (v : vec4 A) (i : nat) : A :=
  match i with 0 => x4 v | 1 => y4 v | 2 => z4 v | _ => w4 v end.

Definition col2 {A} (m : mat2 A) (i : nat) : vec2 A :=
  match i with 0 => m2c0 m | _ => m2c1 m end.
Definition col3 {A} (m : mat3 A) (i : nat) : vec3 A :=
  match i with 0 => m3c0 m | 1 => m3c1 m | _ => m3c2 m end.
Definition col4 {A} (m : mat4 A) (i : nat) : vec4 A :=
  match i with 0 => m4c0 m | 1 => m4c1 m | 2 => m4c2 m | _ => m4c3 m end.

(** [m[i][j]]: column [i], row [j]. *)
Definition at2 {A} (m : mat2 A) (i j : nat) : A := el2 (col2 m i) j.
Definition at3 {A} (m : mat3 A) (i j : nat) : A := el3 (col3 m i) j.
Definition at4 {A} (m : mat4 A) (i j : nat) : A := el4 (col4 m i) j.

(** Writing one element: [v[i] = a]. *)
Definition set2 {A} (v : vec2 A) (i : nat) (a : A) : vec2 A :=
  match i with 0 => V2 a (y2 v) | _ => V2 (x2 v) a end.
Definition set3 {A} (v : vec3 A) (i : nat) (a : A) : vec3 A :=
  match i with
  | 0 => V3 a (y3 v) (z3 v)
  | 1 => V3 (x3 v) a (z3 v)
  | _ => V3 (x3 v) (y3 v) a
  end.
Definition set4 {A} (v : vec4 A) (i : nat) (a : A) : vec4 A :=
  match i with
  | 0 => V4 a (y4 v) (z4 v) (w4 v)
  | 1 => V4 (x4 v) a (z4 v) (w4 v)
  | 2 => V4 (x4 v) (y4 v) a (w4 v)
  | _ => V4 (x4 v) (y4 v) (z4 v) a
  end.
Definition qset {A} (q : quat A) (i : nat) (a : A) : quat A :=
  match i with
  | 0 => Quat a (qy q) (qz q) (qw q)
  | 1 => Quat (qx q) a (qz q) (qw q)
  | 2 => Quat (qx q) (qy q) a (qw q)
  | _ => Quat (qx q) (qy q) (qz q) a
  end.
