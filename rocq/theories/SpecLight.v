(** * Specification vocabulary: diffuse lighting *)
From Coq Require Import ZArith Reals List.
From Flocq Require Import Core IEEE754.BinarySingleNaN.
From Verif Require Import Scalar IEEE32 FloatBasics Types Spec SpecR SpecF32 SpecMat SpecGeo SpecErr ModelCommon ModelGeom.
Import ListNotations.
Local Open Scope R_scope.

(** the client's [clamp(dot(normalize(n), normalize(l)), 0.0f, 1.0f)] *)
Definition diffuse (L : Libm) (n l : vec3 f32) : f32 :=
  clamp_f (F32 L) (dot3 (F32 L) (normalize3 (F32 L) n) (normalize3 (F32 L) l)) (f32_lit 0 0) (f32_lit 1 0).
(** the cosine of the angle between two vectors *)
Definition cosine (a b : list R) : R := ip a b / (norm a * norm b).
Definition lit_range (lo hi : R) (v : vec3 f32) : Prop := all_finite (l3 v) /\ lo <= norm (vals (l3 v)) <= hi.
