(** * Specification vocabulary: view matrices and their accuracy *)
From Coq Require Import ZArith Reals List.
From Flocq Require Import Core IEEE754.BinarySingleNaN.
From Verif Require Import IEEE32 FloatBasics SpecF32 SpecR SpecMat SpecGeo SpecErr.
Import ListNotations.
Local Open Scope R_scope.

(** the axes of a viewer: [w] is the given unit vector, x is perpendicular to [up] and [w], y completes the frame *)
Definition axis_x (w up : list R) : list R := unit_of (cross_l up w).
Definition axis_y (w up : list R) : list R := cross_l w (axis_x w up).
(** the rows are the axes; the eye goes to the origin *)
Definition view_matrix (w up eye : list R) : list R :=
  let x := axis_x w up in let y := axis_y w up in
  affine (build_mat 3 (fun i j => nth j (nth i [x; y; w] []) 0)) [- ip x eye; - ip y eye; - ip w eye].
(** a tolerance for every entry *)
Definition close_each (tol : list R) (computed : list f32) (exact : list R) : Prop :=
  Forall2 (fun c p => finite c /\ Rabs (b2r c - fst p) <= snd p) computed (combine exact tol).
(** [e] for the linear part, [t] for the translation, the last row exact *)
Definition view_tolerance (e t : R) : list R := [e; e; e; 0; e; e; e; 0; e; e; e; 0; t; t; t; 0].
