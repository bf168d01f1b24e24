(** * Properties: cross product, orthogonal vectors, octahedral encoding over the reals *)

From Coq Require Import ZArith Bool Reals List Lra.
From Flocq Require Import Core IEEE754.BinarySingleNaN.
From Verif Require Import Scalar IEEE32 F32Tac RealInst FloatBasics Outcome Types Spec SpecF32 SpecR RealTac ModelVec ModelCommon
  ModelQuat ModelExp ModelGeom.
From Verif Require Import PfOrtho.
Import ListNotations.
Local Open Scope R_scope.


(** C34: the algebra of the cross product; [det] is the triple product. *)
Theorem C34_cross :
  let add := vec3_add RS in let scale := vec3_mul_sc RS in let X := cross RS in
  (forall u v w, X (add u v) w = add (X u w) (X v w)) /\
  (forall u v w, X u (add v w) = add (X u v) (X u w)) /\
  (forall a u v, X (scale u a) v = scale (X u v) a /\ X u (scale v a) = scale (X u v) a) /\
  (forall u v, X u v = vec3_neg RS (X v u)) /\
  (forall u v, ip (l3 u) (l3 (X u v)) = 0 /\ ip (l3 v) (l3 (X u v)) = 0) /\
  (forall u v, ip (l3 (X u v)) (l3 (X u v)) = ip (l3 u) (l3 u) * ip (l3 v) (l3 v) - (ip (l3 u) (l3 v))^2) /\
  (forall u v w, add (X u (X v w)) (add (X v (X w u)) (X w (X u v))) = V3 0 0 0) /\
  (forall u v w, X u (X v w) = vec3_sub RS (scale v (ip (l3 u) (l3 w))) (scale w (ip (l3 u) (l3 v)))) /\
  (forall u v w, ip (l3 u) (l3 (X v w)) = ip (l3 v) (l3 (X w u))) /\
  X (V3 1 0 0) (V3 0 1 0) = V3 0 0 1.
Proof. exact C34_cross_pf. Qed.
Print Assumptions C34_cross.

(** C34: |u x v| = |u| |v| sin of the angle, so parallel vectors are those with zero cross product. *)
Theorem C34_parallel : forall u v : vec3 R, ~ zeros (l3 v) ->
  (l3 (cross RS u v) = [0; 0; 0] <-> exists k, l3 u = map (Rmult k) (l3 v)).
Proof. exact C34_parallel_pf. Qed.
Print Assumptions C34_parallel.

Example C34_ex : cross RS (V3 1 2 3) (V3 4 5 6) = V3 (- 3) 6 (- 3).
Proof. rs. f_equal; ring. Qed.


(** C38: orthogonal gives a nonzero perpendicular vector. *)
Theorem C38_orthogonal : forall v : vec3 R,
  ip (l3 v) (l3 (orthogonal RS v)) = 0 /\
  (~ zeros (l3 v) -> ~ zeros (l3 (orthogonal RS v))).
Proof. exact C38_orthogonal_pf. Qed.
Print Assumptions C38_orthogonal.

(** C38: orthogonal_branchless is perpendicular, and nonzero on every unit vector. *)
Theorem C38_branchless : forall v : vec3 R,
  ip (l3 v) (l3 (orthogonal_branchless RS v)) = 0 /\
  (norm (l3 v) = 1 -> ~ zeros (l3 (orthogonal_branchless RS v))).
Proof. exact C38_branchless_pf. Qed.
Print Assumptions C38_branchless.

(** C38: but off the unit sphere it can be the zero vector. *)
Theorem C38_branchless_refuted : exists v : vec3 R, ~ zeros (l3 v) /\ orthogonal_branchless RS v = V3 0 0 0.
Proof. exact C38_branchless_refuted_pf. Qed.
Print Assumptions C38_branchless_refuted.

Example C38_ex : orthogonal RS (V3 1 2 3) = V3 0 (- 3) 2.
Proof. rs. rewrite !Rabs_pos_eq by lra. now rewrite Rlt_bool_false by lra. Qed.
(** the zero result above is what binary32 computes as well *)
Example C38_ex2 : orthogonal_branchless (F32 L0) (V3 (f32_lit 1 0) (f32_lit 0 0) (f32_lit 2 0)) =
  V3 (Bopp (f32_lit 0 0)) (f32_lit 0 0) (f32_lit 0 0).
Proof. f32_eq. Qed.


(** C39: the encoding lies in the square and depends only on the direction. *)
Theorem C39_encode : forall v : vec3 R, ~ zeros (l3 v) ->
  Forall (fun c => -1 <= c <= 1) (l2 (encode_octahedral RS v)) /\
  (forall a, 0 < a -> encode_octahedral RS (vec3_mul_sc RS v a) = encode_octahedral RS v).
Proof. exact C39_encode_pf. Qed.
Print Assumptions C39_encode.

(** C39: decoding always gives a unit vector. *)
Theorem C39_decode_unit : forall e : vec2 R, norm (l3 (decode_octahedral RS e)) = 1.
Proof. exact C39_decode_unit_pf. Qed.
Print Assumptions C39_decode_unit.

(** C39: decode inverts encode on the closed upper hemisphere. *)
Theorem C39_roundtrip_upper : forall v : vec3 R, ~ zeros (l3 v) -> 0 <= z3 v ->
  decode_octahedral RS (encode_octahedral RS v) = normalize3 RS v.
Proof. exact C39_roundtrip_upper_pf. Qed.
Print Assumptions C39_roundtrip_upper.

(** C39: and never on the open lower hemisphere. *)
Theorem C39_roundtrip_lower_refuted : forall v : vec3 R, z3 v < 0 ->
  decode_octahedral RS (encode_octahedral RS v) <> normalize3 RS v.
Proof. exact C39_roundtrip_lower_refuted_pf. Qed.
Print Assumptions C39_roundtrip_lower_refuted.

(** (0,0,-1) encodes to the corner (1,1), which decodes to (0,1,-1)/sqrt 2 *)
Example C39_ex : encode_octahedral (F32 L0) (V3 (f32_lit 0 0) (f32_lit 0 0) (f32_lit (-1) 0)) = V2 (f32_lit 1 0) (f32_lit 1 0) /\
  Beqb (y3 (decode_octahedral (F32 L0) (V2 (f32_lit 1 0) (f32_lit 1 0)))) (f32_lit 0 0) = false.
Proof. split; [f32_eq|reflexivity]. Qed.

