(** * Specification vocabulary: device coordinates of a projected point, and what the depth test relies on *)
From Coq Require Import ZArith Reals List.
From Flocq Require Import Core IEEE754.BinarySingleNaN.
From Verif Require Import Scalar IEEE32 Types Outcome FloatBasics SpecF32 SpecErr SpecProj ModelVec ModelMat.
Import ListNotations.
Local Open Scope R_scope.

(** the client's [clip = m * vec4(x, y, z, 1); clip / clip.w] *)
Definition device (L : Libm) (m : mat4 f32) (x y z : f32) : vec4 f32 :=
  let clip := mat4_mul_vec (F32 L) m (V4 x y z (f32_lit 1 0)) in vec4_div_sc (F32 L) clip (w4 clip).

(** a depth range whose far plane is at least twice as far as its near plane *)
Definition depth_range (n f : f32) : Prop :=
  all_finite [n; f] /\ 0 < b2r n /\ 2 * b2r n <= b2r f /\ moderate (b2r n) /\ moderate (b2r f).

(** ideal device depth at distance [d]: 0 to 1, or -1 to 1 *)
Definition depth01 (n f d : R) : R := f * (d - n) / ((f - n) * d).
Definition depth11 (n f d : R) : R := ((f + n) * d - 2 * f * n) / ((f - n) * d).

(** ** Laws *)
(** [s] is the sign of z in front of the camera, [width] the length of the range of depths *)
Definition depth_accurate (L : Libm) (matrix : f32 -> f32 -> f32 -> f32 -> outcome (mat4 f32)) (s width : R) (depth : R -> R -> R -> R) : Prop :=
  forall (fovy aspect n f x y z : f32) (m : mat4 f32),
  matrix fovy aspect n f = Ret m -> depth_range n f -> all_finite [x; y; z] -> b2r n <= s * b2r z <= b2r f ->
  let p := device L m x y z in
  finite (z4 p) /\ b2r (w4 p) = 1 /\
  Rabs (b2r (z4 p) - depth (b2r n) (b2r f) (s * b2r z)) <= 16 * width * ulp_half * (b2r f / (b2r f - b2r n)).

(** the depth test sees two points in the right order *)
Definition depth_ordered (L : Libm) (matrix : f32 -> f32 -> f32 -> f32 -> outcome (mat4 f32)) (s : R) : Prop :=
  forall (fovy aspect n f x y z x' y' z' : f32) (m : mat4 f32),
  matrix fovy aspect n f = Ret m -> depth_range n f -> all_finite [x; y; z; x'; y'; z'] ->
  let d := s * b2r z in let d' := s * b2r z' in
  b2r n <= d <= b2r f -> b2r n <= d' <= b2r f ->
  32 * ulp_half < b2r n * (/ d - / d') ->
  Bltb (z4 (device L m x y z)) (z4 (device L m x' y' z')) = true.

(** screen position, against a tangent accurate to [k] half-ulps *)
Definition screen_accurate (L : Libm) (matrix : f32 -> f32 -> f32 -> f32 -> outcome (mat4 f32)) (s : R) : Prop :=
  forall (fovy aspect n f x y z : f32) (k : R) (m : mat4 f32),
  let T := tan (b2r fovy / 2) in let a := b2r aspect in let d := s * b2r z in
  matrix fovy aspect n f = Ret m -> depth_range n f -> all_finite [fovy; aspect; x; y; z] -> b2r n <= d <= b2r f ->
  in_range (b2r fovy) -> Forall moderate [a; T] ->
  0 <= k <= 40 -> (forall h, finite h -> b2r h = b2r fovy / 2 -> rel_close k (l_tan L h) T) ->
  Forall in_range [1 / (a * T); b2r x / (a * T); b2r x / (a * T) / d; 1 / T; b2r y / T; b2r y / T / d] ->
  rel_close (k + 5) (x4 (device L m x y z)) (b2r x / (a * T * d)) /\
  rel_close (k + 5) (y4 (device L m x y z)) (b2r y / (T * d)).
