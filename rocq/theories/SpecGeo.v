(** * Specification vocabulary: rotations, rigid motions, projections, quaternions

    Points and vectors are lists of reals, matrices column-major lists (SpecMat). *)
From Coq Require Import Reals List Arith.
From Verif Require Import Types Spec SpecR SpecMat.
Import ListNotations.
Local Open Scope R_scope.

(** ** Rotations of space *)
Definition cross_l (u v : list R) : list R :=
  let c i j := nth i u 0 * nth j v 0 - nth j u 0 * nth i v 0 in [c 1 2; c 2 0; c 0 1]%nat.
Definition vadd := zip Rplus.
Definition vsub := zip Rminus.
Definition vscale (a : R) := map (Rmult a).
Definition unit_of (v : list R) : list R := vscale (/ norm v) v.

(** orthogonal with determinant one *)
Definition rotation (n : nat) (m : list R) : Prop :=
  mprod n (mtransp n m) m = mident n /\ mprod n m (mtransp n m) = mident n /\ leibniz n m = 1.
(** Rodrigues: [v] turned by the angle [a] about the unit vector [n] *)
Definition rodrigues (a : R) (n v : list R) : list R :=
  vadd (vadd (vscale (cos a) v) (vscale (sin a) (cross_l n v))) (vscale ((1 - cos a) * ip n v) n).
Definition rotmat (a : R) (n : list R) : list R :=
  concat (map (rodrigues a n) [[1; 0; 0]; [0; 1; 0]; [0; 0; 1]]).

(** ** Homogeneous coordinates *)
Definition affine (r t : list R) : list R :=
  build_mat 4 (fun i j => match i, j with
    | 3%nat, 3%nat => 1 | 3%nat, _ => 0 | _, 3%nat => nth i t 0 | _, _ => ent 3 r i j end).
Definition point (p : list R) : list R := p ++ [1].
Definition direction (v : list R) : list R := v ++ [0].
Definition translation (t : list R) : list R := affine (mident 3) t.
Definition diagonal (n : nat) (d : list R) : list R := build_mat n (fun i j => if Nat.eqb i j then nth i d 0 else 0).
Definition scaling (s : list R) : list R := affine (diagonal 3 s) [0; 0; 0].
Definition turning (r : list R) : list R := affine r [0; 0; 0].

(** ** Projections *)
(** the affine function taking [a] to [a'] and [b] to [b'] *)
Definition interval_map (a b a' b' x : R) : R := a' + (x - a) * (b' - a') / (b - a).
(** [m] maps the box to the clip box; [sz] is the sign of the view axis *)
Definition orthographic (m : list R) (l r b t n f : R) (sz z0 z1 : R) : Prop :=
  (forall x y z, mapply 4 m [x; y; sz * z; 1] =
     [interval_map l r (-1) 1 x; interval_map b t (-1) 1 y; interval_map n f z0 z1 z; 1]) /\
  leibniz 4 m <> 0.
(** perspective: the point at distance [d] along the view axis has clip w = [d];
    the edges of the frustum land on +-1; near and far on [z0] and 1; depth is
    strictly increasing *)
Definition perspective (m : list R) (fovy aspect n f sz z0 : R) : Prop :=
  exists depth : R -> R,
    (forall x y d, 0 < d -> exists cx cy cz, mapply 4 m [x; y; sz * d; 1] = [cx; cy; cz; d] /\
       cx / d = x / (aspect * (d * tan (fovy / 2))) /\ cy / d = y / (d * tan (fovy / 2)) /\ cz / d = depth d) /\
    depth n = z0 /\ depth f = 1 /\ (forall d d', 0 < d < d' -> depth d < depth d') /\
    leibniz 4 m <> 0.

(** ** Quaternions: scalar part [qw], vector part [qx, qy, qz] *)
Definition qvec (q : quat R) : list R := [qx q; qy q; qz q].
Definition mkq (s : R) (v : list R) : quat R := Quat (nth 0 v 0) (nth 1 v 0) (nth 2 v 0) s.
(** Hamilton's product *)
Definition ham (p q : quat R) : quat R :=
  mkq (qw p * qw q - ip (qvec p) (qvec q))
      (vadd (vadd (vscale (qw p) (qvec q)) (vscale (qw q) (qvec p))) (cross_l (qvec p) (qvec q))).
Definition qconj (q : quat R) : quat R := mkq (qw q) (map Ropp (qvec q)).
Definition qpure (v : list R) : quat R := mkq 0 v.
Definition qone : quat R := mkq 1 [0; 0; 0].
Definition unit_quat (q : quat R) : Prop := norm (lq q) = 1.
(** the vector part of q v q* *)
Definition qrot (q : quat R) (v : list R) : list R := qvec (ham (ham q (qpure v)) (qconj q)).
