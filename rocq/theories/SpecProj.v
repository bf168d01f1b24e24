(** * Specification vocabulary: relative accuracy, and the entries of projection matrices *)
From Coq Require Import ZArith Reals List.
From Flocq Require Import Core IEEE754.BinarySingleNaN.
From Verif Require Import IEEE32 FloatBasics SpecF32 SpecErr.
Import ListNotations.
Local Open Scope R_scope.

(** [c] is finite and within [k] half-ulps of [x], relatively *)
Definition rel_close (k : R) (c : f32) (x : R) : Prop := finite c /\ Rabs (b2r c - x) <= k * ulp_half * Rabs x.
(** far from underflow and overflow *)
Definition in_range (x : R) : Prop := x = 0 \/ / IZR (2 ^ 120) <= Rabs x <= IZR (2 ^ 120).

(** column-major entries of an orthographic matrix with depth row z -> a z + b *)
Definition ortho_entries (l r b t za zb : R) : list R :=
  [ 2 / (r - l); 0; 0; 0;  0; 2 / (t - b); 0; 0;  0; 0; za; 0;
    - (r + l) / (r - l); - (t + b) / (t - b); zb; 1 ].
(** column-major entries of a perspective matrix: half-angle tangent [t], depth row z -> a z + b, w = s z *)
Definition persp_entries (aspect t za zb s : R) : list R :=
  [ 1 / (aspect * t); 0; 0; 0;  0; 1 / t; 0; 0;  0; 0; za; s;  0; 0; zb; 0 ].

(** ** Laws *)
(** an orthographic matrix is entrywise accurate whenever its exact entries are in range *)
Definition ortho_accurate (k : R) (comps : list f32) (za zb : R) (l r b t : f32) : Prop :=
  let exact := ortho_entries (b2r l) (b2r r) (b2r b) (b2r t) za zb in
  bounded_by (IZR (2 ^ 120)) [l; r; b; t] -> all_finite [l; r; b; t] -> b2r l <> b2r r -> b2r b <> b2r t ->
  Forall in_range exact -> Forall2 (rel_close k) comps exact.
Definition moderate (x : R) : Prop := / IZR (2 ^ 50) <= Rabs x <= IZR (2 ^ 50).
(** a perspective matrix is entrywise accurate whenever it is returned and its exact entries are in range; [T] is the
    exact tangent of half the field of view, which the tangent of the C library gives within [k] half-ulps *)
Definition perspective_accurate (tan32 : f32 -> f32) (matrix : f32 -> f32 -> f32 -> f32 -> list f32 -> Prop)
    (za zb : R -> R -> R) (s : R) : Prop :=
  forall (fovy aspect n f : f32) (k : R) (comps : list f32),
  let T := tan (b2r fovy / 2) in let exact := persp_entries (b2r aspect) T (za (b2r n) (b2r f)) (zb (b2r n) (b2r f)) s in
  all_finite [fovy; aspect; n; f] -> in_range (b2r fovy) -> Forall moderate [b2r aspect; T; b2r n; b2r f] -> b2r n <> b2r f ->
  0 <= k <= 50 -> (forall h, finite h -> b2r h = b2r fovy / 2 -> rel_close k (tan32 h) T) ->
  matrix fovy aspect n f comps -> Forall in_range exact -> Forall2 (rel_close (k + 41 / 10)) comps exact.
