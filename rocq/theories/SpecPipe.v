(** * Specification vocabulary: from model coordinates up a scene hierarchy, through a camera, to the depth buffer *)
From Coq Require Import ZArith Reals List.
From Flocq Require Import Core IEEE754.BinarySingleNaN.
From Verif Require Import Scalar IEEE32 Types Outcome FloatBasics Spec SpecR SpecMat SpecGeo SpecF32 SpecErr SpecProj SpecDepth SpecLook SpecCamera SpecPlace SpecScene ModelVec ModelMat.
Import ListNotations.
Local Open Scope R_scope.

(** how far in front of the eye the point [v] of the model at the end of the chain [ns] is, in exact arithmetic *)
Definition true_depth (eye center : vec3 f32) (ns : list node) (v : vec3 f32) : R :=
  ip (sight eye center) (vsub (exact_carry ns (vals (l3 v))) (vals (l3 eye))).
(** the error of its position in the eye's frame: that of the hierarchy and that of the view transform *)
Definition scene_error (s : R) (eye : vec3 f32) (ns : list node) (v : vec3 f32) : R :=
  let c := carry_error ns (vals (l3 v)) in
  c + ((44 / s + 38) * ulp_half * (reach ns (vals (l3 v)) + c + norm (vals (l3 eye))) + 8 * tiny).
Definition model_point (ns : list node) (v : vec3 f32) : Prop := Forall good_node ns /\ all_finite (l3 v) /\ in_reach ns (vals (l3 v)).

(** ** Laws; [view] is the matrix-building function *)
Definition scene_depth_accurate (L : Libm) (view : vec3 f32 -> vec3 f32 -> vec3 f32 -> mat4 f32)
    (matrix : f32 -> f32 -> f32 -> f32 -> outcome (mat4 f32)) (width : R) (depth : R -> R -> R -> R) : Prop :=
  forall (eye center up : vec3 f32) (s : R) (ns : list node) (v : vec3 f32) (fovy aspect n f : f32) (m : mat4 f32),
  camera eye center up s -> model_point ns v -> matrix fovy aspect n f = Ret m -> depth_range n f ->
  let D := true_depth eye center ns v in let t := scene_error s eye ns v in
  b2r n + t <= D <= b2r f - t ->
  let q := seen L (view eye center up) m (carry L ns v) in
  finite (z4 q) /\ b2r (w4 q) = 1 /\
  Rabs (b2r (z4 q) - depth (b2r n) (b2r f) D) <= width * (16 * ulp_half + t / (D - t)) * (b2r f / (b2r f - b2r n)).
(** two objects, each at the end of its own chain *)
Definition scene_depth_ordered (L : Libm) (view : vec3 f32 -> vec3 f32 -> vec3 f32 -> mat4 f32)
    (matrix : f32 -> f32 -> f32 -> f32 -> outcome (mat4 f32)) : Prop :=
  forall (eye center up : vec3 f32) (s : R) (ns ns' : list node) (v v' : vec3 f32) (fovy aspect n f : f32) (m : mat4 f32),
  camera eye center up s -> model_point ns v -> model_point ns' v' -> matrix fovy aspect n f = Ret m -> depth_range n f ->
  let D := true_depth eye center ns v in let t := scene_error s eye ns v in
  let D' := true_depth eye center ns' v' in let t' := scene_error s eye ns' v' in
  b2r n + t <= D <= b2r f - t -> b2r n + t' <= D' <= b2r f - t' ->
  32 * ulp_half < b2r n * (/ (D + t) - / (D' - t')) ->
  Bltb (z4 (seen L (view eye center up) m (carry L ns v))) (z4 (seen L (view eye center up) m (carry L ns' v'))) = true.
