(** * Specification vocabulary: repeated updates of an orientation *)
From Coq Require Import ZArith Reals List.
From Flocq Require Import Core IEEE754.BinarySingleNaN.
From Verif Require Import IEEE32 Types FloatBasics Spec SpecR SpecMat SpecGeo SpecF32 SpecErr.
Import ListNotations.
Local Open Scope R_scope.

(** a float quaternion at a Euclidean distance of at most [e] from a unit quaternion *)
Definition unit_near (e : R) (q : quat f32) (Q : quat R) : Prop :=
  all_finite (lq q) /\ unit_quat Q /\ norm (vsub (vals (lq q)) (lq Q)) <= e.
(** turns applied one after the other: each in the frame of the body, or each in the fixed frame *)
Definition turns_body (Q0 : quat R) (Ds : list (quat R)) : quat R := fold_left ham Ds Q0.
Definition turns_world (Q0 : quat R) (Ds : list (quat R)) : quat R := fold_left (fun Q D => ham D Q) Ds Q0.
