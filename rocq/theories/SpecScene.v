(** * Specification vocabulary: points carried through a chain of poses *)
From Coq Require Import ZArith Reals List.
From Verif Require Import Scalar IEEE32 FloatBasics Types Spec SpecR SpecF32 SpecMat SpecGeo SpecErr ModelMat ModelTransform ModelQuaternion SpecCamera SpecPlace.
Import ListNotations.
Local Open Scope R_scope.

(** a node of a scene: where it is and how it is turned relative to its parent *)
Definition node : Type := (vec3 f32 * quat f32)%type.
Definition good_node (n : node) : Prop :=
  all_finite (l3 (fst n)) /\ all_finite (lq (snd n)) /\ Rabs (norm (vals (lq (snd n))) - 1) <= 9 * ulp_half.
(** one level up: [vec3(translate(mat4(1.0f), p) * mat4_cast(q) * vec4(v, 1.0f))] *)
Definition lift (L : Libm) (v : vec3 f32) (n : node) : vec3 f32 :=
  let o := eye_space L (pose L (fst n) (snd n)) v in V3 (x4 o) (y4 o) (z4 o).
Definition carry (L : Libm) (ns : list node) (v : vec3 f32) : vec3 f32 := fold_left (lift L) ns v.
(** the same in exact arithmetic *)
Definition exact_lift (V : list R) (n : node) : list R := vadd (qrot (unit_dir (snd n)) V) (vals (l3 (fst n))).
Definition exact_carry (ns : list node) (V : list R) : list R := fold_left exact_lift ns V.
(** the length of the way from the point to the root: a bound for every intermediate position *)
Definition offset (n : node) : R := norm (vals (l3 (fst n))).
Definition reach (ns : list node) (V : list R) : R := norm V + fold_right Rplus 0 (map offset ns).
(** the growth of the error per level *)
Definition per_level : R := 1 + 186 * ulp_half.
Definition carry_error (ns : list node) (V : list R) : R :=
  (per_level ^ length ns - 1) * reach ns V + 16 * INR (length ns) * per_level ^ length ns * tiny.
(** no intermediate position is farther than 2^61 from its origin *)
Definition in_reach (ns : list node) (V : list R) : Prop :=
  per_level ^ length ns * (reach ns V + 16 * INR (length ns) * tiny) <= IZR (2 ^ 61).
