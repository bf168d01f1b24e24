(** * Specification vocabulary: from world coordinates through a view and a projection matrix to device coordinates *)
From Coq Require Import ZArith Reals List.
From Flocq Require Import Core IEEE754.BinarySingleNaN.
From Verif Require Import Scalar IEEE32 Types Outcome FloatBasics Spec SpecR SpecMat SpecGeo SpecF32 SpecErr SpecProj SpecDepth SpecLook ModelVec ModelMat.
Import ListNotations.
Local Open Scope R_scope.

(** the client's [view * vec4(p, 1)] *)
Definition eye_space (L : Libm) (view : mat4 f32) (p : vec3 f32) : vec4 f32 :=
  mat4_mul_vec (F32 L) view (V4 (x3 p) (y3 p) (z3 p) (f32_lit 1 0)).
(** [clip = proj * vec4(eye.xyz, 1); clip / clip.w] *)
Definition seen (L : Libm) (view proj : mat4 f32) (p : vec3 f32) : vec4 f32 :=
  let e := eye_space L view p in device L proj (x4 e) (y4 e) (z4 e).

(** the unit vector from the eye towards the centre *)
Definition sight (eye center : vec3 f32) : list R := unit_of (vsub (vals (l3 center)) (vals (l3 eye))).
(** a camera that is not degenerate: eye and centre apart, and the sine of the angle between sight and up at least [s] *)
Definition camera (eye center up : vec3 f32) (s : R) : Prop :=
  all_finite (l3 eye) /\ all_finite (l3 center) /\ all_finite (l3 up) /\
  let E := vals (l3 eye) in let U := vals (l3 up) in let d := vsub (vals (l3 center)) E in
  / IZR (2 ^ 47) <= norm d <= IZR (2 ^ 61) /\ / IZR (2 ^ 30) <= norm U <= IZR (2 ^ 60) /\ norm E <= IZR (2 ^ 61) /\
  / 1000 <= s /\ s * norm U <= norm (cross_l (sight eye center) U).
(** how far in front of the eye a point is, along the line of sight *)
Definition ahead (eye center p : vec3 f32) : R := ip (sight eye center) (vsub (vals (l3 p)) (vals (l3 eye))).
(** the error of a position in the eye's frame *)
Definition place_error (s : R) (eye p : vec3 f32) : R :=
  (44 / s + 38) * ulp_half * (norm (vals (l3 p)) + norm (vals (l3 eye))) + 8 * tiny.

(** ** Laws; [view] is the matrix-building function, [sg] the sign of z in front of the camera *)
Definition world_depth_accurate (L : Libm) (view : vec3 f32 -> vec3 f32 -> vec3 f32 -> mat4 f32)
    (matrix : f32 -> f32 -> f32 -> f32 -> outcome (mat4 f32)) (width : R) (depth : R -> R -> R -> R) : Prop :=
  forall (eye center up p : vec3 f32) (s : R) (fovy aspect n f : f32) (m : mat4 f32),
  camera eye center up s -> all_finite (l3 p) -> norm (vals (l3 p)) <= IZR (2 ^ 61) ->
  matrix fovy aspect n f = Ret m -> depth_range n f ->
  let D := ahead eye center p in let dl := place_error s eye p in
  b2r n + dl <= D <= b2r f - dl ->
  let q := seen L (view eye center up) m p in
  finite (z4 q) /\ b2r (w4 q) = 1 /\
  Rabs (b2r (z4 q) - depth (b2r n) (b2r f) D) <= width * (16 * ulp_half + dl / D) * (b2r f / (b2r f - b2r n)).
Definition world_depth_ordered (L : Libm) (view : vec3 f32 -> vec3 f32 -> vec3 f32 -> mat4 f32)
    (matrix : f32 -> f32 -> f32 -> f32 -> outcome (mat4 f32)) : Prop :=
  forall (eye center up p p' : vec3 f32) (s : R) (fovy aspect n f : f32) (m : mat4 f32),
  camera eye center up s -> all_finite (l3 p) -> all_finite (l3 p') -> norm (vals (l3 p)) <= IZR (2 ^ 61) -> norm (vals (l3 p')) <= IZR (2 ^ 61) ->
  matrix fovy aspect n f = Ret m -> depth_range n f ->
  let D := ahead eye center p in let dl := place_error s eye p in
  let D' := ahead eye center p' in let dl' := place_error s eye p' in
  b2r n + dl <= D <= b2r f - dl -> b2r n + dl' <= D' <= b2r f - dl' ->
  32 * ulp_half < b2r n * (/ (D + dl) - / (D' - dl')) ->
  Bltb (z4 (seen L (view eye center up) m p)) (z4 (seen L (view eye center up) m p')) = true.
