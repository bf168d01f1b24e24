(** * Tactics for matrices and quaternions over the reals *)
From Coq Require Import Reals List Lra.
From Flocq Require Import Core.
From Verif Require Import Scalar RealInst Types Spec SpecR SpecMat RealTac.
Import ListNotations.
Local Open Scope R_scope.

(** Computes everything including the matrix specification vocabulary. *)
Ltac ms := cbv -[Rplus Rmult Rminus Ropp Rdiv Rinv IZR not iff sqrt sin cos tan acos asin atan PI
  Rlt Rle Rgt Rge Rabs Ratan2 Rlt_bool Rle_bool Req_bool].
Ltac ms_in H := cbv -[Rplus Rmult Rminus Ropp Rdiv Rinv IZR not iff sqrt sin cos tan acos asin atan PI
  Rlt Rle Rgt Rge Rabs Ratan2 Rlt_bool Rle_bool Req_bool] in H.
Ltac parts := repeat match goal with
  | |- _ :: _ = _ :: _ => f_equal
  | |- M2 _ _ = M2 _ _ => f_equal
  | |- M3 _ _ _ = M3 _ _ _ => f_equal
  | |- M4 _ _ _ _ = M4 _ _ _ _ => f_equal
  | |- V2 _ _ = V2 _ _ => f_equal
  | |- V3 _ _ _ = V3 _ _ _ => f_equal
  | |- V4 _ _ _ _ = V4 _ _ _ _ => f_equal
  | |- Quat _ _ _ _ = Quat _ _ _ _ => f_equal
  end.
Ltac ents := match goal with |- _ = _ => ms; parts; try reflexivity; ring end.
Ltac idx i n := match n with
  | 2 => destruct i as [|[|?]] | 3 => destruct i as [|[|[|?]]] | 4 => destruct i as [|[|[|[|?]]]] end.
Ltac inj H := injection H; clear H; intros; subst.
