(** * Specification vocabulary: the octahedral map *)
From Coq Require Import ZArith Reals List.
From Flocq Require Import Core IEEE754.BinarySingleNaN.
From Verif Require Import IEEE32 FloatBasics SpecF32 SpecErr.
Import ListNotations.
Local Open Scope R_scope.

(** the sum of the absolute values *)
Definition taxicab (v : list R) : R := fold_right (fun x s => Rabs x + s) 0 v.
(** 1 for numbers from 0 upwards, -1 for negative numbers *)
Definition side (x : R) : R := if Rlt_dec x 0 then -1 else 1.
(** the point of the square for a direction: project onto the octahedron |x| + |y| + |z| = 1 and drop z;
    the lower half is folded outwards over the diagonals *)
Definition octahedral (v : list R) : list R :=
  let s := taxicab v in let x := nth 0 v 0 / s in let y := nth 1 v 0 / s in
  if Rle_dec (nth 2 v 0) 0 then [(1 - Rabs y) * side x; (1 - Rabs x) * side y] else [x; y].
(** zero, or at least 2^-k *)
Definition zero_or_above (k : Z) (x : f32) : Prop := b2r x = 0 \/ / IZR (2 ^ k) <= Rabs (b2r x).
