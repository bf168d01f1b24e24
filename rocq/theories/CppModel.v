(** * The model function of every function of the source

    [model S b f args] is what the model says a call of [f] does.  The decoders
    [d..] take a value of a C++ type apart, the encoders [e..] build one. *)
From Coq Require Import ZArith NArith Bool List.
From Verif Require Import Scalar Outcome Types Int32.
From Verif Require ModelVec ModelIVec ModelBVec ModelMat ModelQuat ModelCommon ModelGeom ModelExp ModelTrig ModelComp ModelConst ModelColor ModelMatrix ModelTransform ModelQuaternion.
From Verif Require Import Cpp CppNames.
Import ListNotations.
Local Open Scope outcome_scope.

Section Coding.
Variable S : Scalar.
Notation val := (val S).
Notation result := (result S).

Definition eF (x : S) : val := VF x.
Definition eI (n : Z) : val := VI n.
Definition eB (b : bool) : val := VB b.
Definition dF (v : val) : option S := match v with VF x => Some x | _ => None end.
Definition dI (v : val) : option Z := match v with VI n => Some n | _ => None end.
Definition dU (v : val) : option N := match v with VU n => Some n | _ => None end.
Definition dB (v : val) : option bool := match v with VB b => Some b | _ => None end.
Definition eV2 (v : vec2 S) : val := Obj Cvec2 [VF (x2 v); VF (y2 v)].
Definition dV2 (v : val) : option (vec2 S) :=
  match v with Obj Cvec2 [VF a; VF b] => Some (V2 a b) | _ => None end.
Definition eV3 (v : vec3 S) : val := Obj Cvec3 [VF (x3 v); VF (y3 v); VF (z3 v)].
Definition dV3 (v : val) : option (vec3 S) :=
  match v with Obj Cvec3 [VF a; VF b; VF c] => Some (V3 a b c) | _ => None end.
Definition eV4 (v : vec4 S) : val := Obj Cvec4 [VF (x4 v); VF (y4 v); VF (z4 v); VF (w4 v)].
Definition dV4 (v : val) : option (vec4 S) :=
  match v with Obj Cvec4 [VF a; VF b; VF c; VF d] => Some (V4 a b c d) | _ => None end.
Definition eI2 (v : vec2 Z) : val := Obj Civec2 [VI (x2 v); VI (y2 v)].
Definition dI2 (v : val) : option (vec2 Z) :=
  match v with Obj Civec2 [VI a; VI b] => Some (V2 a b) | _ => None end.
Definition eI3 (v : vec3 Z) : val := Obj Civec3 [VI (x3 v); VI (y3 v); VI (z3 v)].
Definition dI3 (v : val) : option (vec3 Z) :=
  match v with Obj Civec3 [VI a; VI b; VI c] => Some (V3 a b c) | _ => None end.
Definition eI4 (v : vec4 Z) : val := Obj Civec4 [VI (x4 v); VI (y4 v); VI (z4 v); VI (w4 v)].
Definition dI4 (v : val) : option (vec4 Z) :=
  match v with Obj Civec4 [VI a; VI b; VI c; VI d] => Some (V4 a b c d) | _ => None end.
Definition eB2 (v : vec2 bool) : val := Obj Cbvec2 [VB (x2 v); VB (y2 v)].
Definition dB2 (v : val) : option (vec2 bool) :=
  match v with Obj Cbvec2 [VB a; VB b] => Some (V2 a b) | _ => None end.
Definition eB3 (v : vec3 bool) : val := Obj Cbvec3 [VB (x3 v); VB (y3 v); VB (z3 v)].
Definition dB3 (v : val) : option (vec3 bool) :=
  match v with Obj Cbvec3 [VB a; VB b; VB c] => Some (V3 a b c) | _ => None end.
Definition eB4 (v : vec4 bool) : val := Obj Cbvec4 [VB (x4 v); VB (y4 v); VB (z4 v); VB (w4 v)].
Definition dB4 (v : val) : option (vec4 bool) :=
  match v with Obj Cbvec4 [VB a; VB b; VB c; VB d] => Some (V4 a b c d) | _ => None end.
Definition eQ (q : quat S) : val := Obj Cquat [VF (qx q); VF (qy q); VF (qz q); VF (qw q)].
Definition dQ (v : val) : option (quat S) :=
  match v with Obj Cquat [VF x; VF y; VF z; VF w] => Some (Quat x y z w) | _ => None end.
Definition eM2 (m : mat2 S) : val := Obj Cmat2 [eV2 (m2c0 m); eV2 (m2c1 m)].
Definition dM2 (v : val) : option (mat2 S) :=
  match v with
  | Obj Cmat2 [s; t] =>
      match dV2 s, dV2 t with Some a, Some b => Some (M2 a b) | _, _ => None end
  | _ => None
  end.
Definition eM3 (m : mat3 S) : val := Obj Cmat3 [eV3 (m3c0 m); eV3 (m3c1 m); eV3 (m3c2 m)].
Definition dM3 (v : val) : option (mat3 S) :=
  match v with
  | Obj Cmat3 [s; t; u] =>
      match dV3 s, dV3 t, dV3 u with Some a, Some b, Some c => Some (M3 a b c) | _, _, _ => None end
  | _ => None
  end.
Definition eM4 (m : mat4 S) : val := Obj Cmat4 [eV4 (m4c0 m); eV4 (m4c1 m); eV4 (m4c2 m); eV4 (m4c3 m)].
Definition dM4 (v : val) : option (mat4 S) :=
  match v with
  | Obj Cmat4 [s; t; u; v] =>
      match dV4 s, dV4 t, dV4 u, dV4 v with Some a, Some b, Some c, Some d => Some (M4 a b c d) | _, _, _, _ => None end
  | _ => None
  end.
(** the array behind a pointer *)
Fixpoint dlist {A} (d : val -> option A) (l : list val) : option (list A) :=
  match l with
  | [] => Some []
  | v :: l => match d v, dlist d l with Some a, Some r => Some (a :: r) | _, _ => None end
  end.
Definition dP {A} (d : val -> option A) (v : val) : option (option (list A)) :=
  match v with
  | VP None => Some None
  | VP (Some l) => match dlist d l with Some r => Some (Some r) | None => None end
  | _ => None
  end.
Definition dPF := dP dF.
Definition dPI := dP dI.
Definition dPB := dP dB.

(** a function of decoded arguments *)
Definition on0 (r : outcome result) (vs : list val) : outcome result :=
  match vs with [] => r | _ => Undefined end.
Definition on {A} (d : val -> option A) (f : A -> list val -> outcome result) (vs : list val) : outcome result :=
  match vs with
  | v :: vs => match d v with Some a => f a vs | None => Undefined end
  | [] => Undefined
  end.

(** what a call returns: a value, a new value of the object, both, or a reference into the object *)
Definition ret {A} (e : A -> val) (a : A) : outcome result := Ret (e a, []).
Definition mutate {A} (e : A -> val) (a : A) : outcome result := Ret (Void, [e a]).
Definition pre {A} (e : A -> val) (p : A * A) : outcome result := Ret (Ref [], [e (fst p)]).
Definition post {A} (e : A -> val) (p : A * A) : outcome result := Ret (e (snd p), [e (fst p)]).
Definition at_index (m : outcome (list nat)) : outcome result := do p <- m; Ret (Ref p, []).
Definition lift {A} (k : A -> outcome result) (m : outcome A) : outcome result := do a <- m; k a.
End Coding.

(** the model *)
Definition model (S : Scalar) (b : build) (f : fn) : list (val S) -> outcome (result S) :=
  match f with
  | vec2__default =>
      on0 S (ret S (eV2 S) (ModelVec.vec2_default S))
  | vec2__no_init_t =>
      on0 S (Ret (blank Cvec2, []))
  | vec2__float =>
      on S (dF S) (fun a0 => on0 S (ret S (eV2 S) (ModelVec.vec2_f S a0)))
  | vec2__int =>
      on S (dI S) (fun a0 => on0 S (ret S (eV2 S) (ModelVec.vec2_i S a0)))
  | vec2__float_float =>
      on S (dF S) (fun a0 => on S (dF S) (fun a1 => on0 S (ret S (eV2 S) (ModelVec.vec2_xy S a0 a1))))
  | make_vec2_float_ptr =>
      on S (dPF S) (fun a0 => on0 S (lift S (ret S (eV2 S)) (ModelVec.make_vec2 S b a0)))
  | op_add_vec2_vec2 =>
      on S (dV2 S) (fun a0 => on S (dV2 S) (fun a1 => on0 S (ret S (eV2 S) (ModelVec.vec2_add S a0 a1))))
  | op_add_vec2_float =>
      on S (dV2 S) (fun a0 => on S (dF S) (fun a1 => on0 S (ret S (eV2 S) (ModelVec.vec2_add_sc S a0 a1))))
  | op_add_float_vec2 =>
      on S (dF S) (fun a0 => on S (dV2 S) (fun a1 => on0 S (ret S (eV2 S) (ModelVec.sc_add_vec2 S a0 a1))))
  | op_sub_vec2_vec2 =>
      on S (dV2 S) (fun a0 => on S (dV2 S) (fun a1 => on0 S (ret S (eV2 S) (ModelVec.vec2_sub S a0 a1))))
  | op_sub_vec2_float =>
      on S (dV2 S) (fun a0 => on S (dF S) (fun a1 => on0 S (ret S (eV2 S) (ModelVec.vec2_sub_sc S a0 a1))))
  | op_sub_float_vec2 =>
      on S (dF S) (fun a0 => on S (dV2 S) (fun a1 => on0 S (ret S (eV2 S) (ModelVec.sc_sub_vec2 S a0 a1))))
  | op_mul_vec2_vec2 =>
      on S (dV2 S) (fun a0 => on S (dV2 S) (fun a1 => on0 S (ret S (eV2 S) (ModelVec.vec2_mul S a0 a1))))
  | op_mul_vec2_float =>
      on S (dV2 S) (fun a0 => on S (dF S) (fun a1 => on0 S (ret S (eV2 S) (ModelVec.vec2_mul_sc S a0 a1))))
  | op_mul_float_vec2 =>
      on S (dF S) (fun a0 => on S (dV2 S) (fun a1 => on0 S (ret S (eV2 S) (ModelVec.sc_mul_vec2 S a0 a1))))
  | op_div_vec2_vec2 =>
      on S (dV2 S) (fun a0 => on S (dV2 S) (fun a1 => on0 S (ret S (eV2 S) (ModelVec.vec2_div S a0 a1))))
  | op_div_vec2_float =>
      on S (dV2 S) (fun a0 => on S (dF S) (fun a1 => on0 S (ret S (eV2 S) (ModelVec.vec2_div_sc S a0 a1))))
  | op_div_float_vec2 =>
      on S (dF S) (fun a0 => on S (dV2 S) (fun a1 => on0 S (ret S (eV2 S) (ModelVec.sc_div_vec2 S a0 a1))))
  | vec2__op_add_assign_vec2 =>
      on S (dV2 S) (fun a0 => on S (dV2 S) (fun a1 => on0 S (mutate S (eV2 S) (ModelVec.vec2_add_assign S (fun _ => a1) a0))))
  | vec2__op_add_assign_float =>
      on S (dV2 S) (fun a0 => on S (dF S) (fun a1 => on0 S (mutate S (eV2 S) (ModelVec.vec2_add_assign_sc S (fun _ => a1) a0))))
  | vec2__op_sub_assign_vec2 =>
      on S (dV2 S) (fun a0 => on S (dV2 S) (fun a1 => on0 S (mutate S (eV2 S) (ModelVec.vec2_sub_assign S (fun _ => a1) a0))))
  | vec2__op_sub_assign_float =>
      on S (dV2 S) (fun a0 => on S (dF S) (fun a1 => on0 S (mutate S (eV2 S) (ModelVec.vec2_sub_assign_sc S (fun _ => a1) a0))))
  | vec2__op_mul_assign_vec2 =>
      on S (dV2 S) (fun a0 => on S (dV2 S) (fun a1 => on0 S (mutate S (eV2 S) (ModelVec.vec2_mul_assign S (fun _ => a1) a0))))
  | vec2__op_mul_assign_float =>
      on S (dV2 S) (fun a0 => on S (dF S) (fun a1 => on0 S (mutate S (eV2 S) (ModelVec.vec2_mul_assign_sc S (fun _ => a1) a0))))
  | vec2__op_div_assign_vec2 =>
      on S (dV2 S) (fun a0 => on S (dV2 S) (fun a1 => on0 S (mutate S (eV2 S) (ModelVec.vec2_div_assign S (fun _ => a1) a0))))
  | vec2__op_div_assign_float =>
      on S (dV2 S) (fun a0 => on S (dF S) (fun a1 => on0 S (mutate S (eV2 S) (ModelVec.vec2_div_assign_sc S (fun _ => a1) a0))))
  | op_add_vec2 =>
      on S (dV2 S) (fun a0 => on0 S (ret S (eV2 S) (ModelVec.vec2_pos S a0)))
  | op_sub_vec2 =>
      on S (dV2 S) (fun a0 => on0 S (ret S (eV2 S) (ModelVec.vec2_neg S a0)))
  | vec2__preinc =>
      on S (dV2 S) (fun a0 => on0 S (pre S (eV2 S) (ModelVec.vec2_preinc S a0)))
  | vec2__postinc =>
      on S (dV2 S) (fun a0 => on0 S (post S (eV2 S) (ModelVec.vec2_postinc S a0)))
  | vec2__predec =>
      on S (dV2 S) (fun a0 => on0 S (pre S (eV2 S) (ModelVec.vec2_predec S a0)))
  | vec2__postdec =>
      on S (dV2 S) (fun a0 => on0 S (post S (eV2 S) (ModelVec.vec2_postdec S a0)))
  | op_eq_vec2_vec2 =>
      on S (dV2 S) (fun a0 => on S (dV2 S) (fun a1 => on0 S (ret S (eB S) (ModelVec.vec2_eq S a0 a1))))
  | op_ne_vec2_vec2 =>
      on S (dV2 S) (fun a0 => on S (dV2 S) (fun a1 => on0 S (ret S (eB S) (ModelVec.vec2_ne S a0 a1))))
  | vec2__index =>
      on S (dV2 S) (fun a0 => on S (dU S) (fun a1 => on0 S (at_index S (do _ <- ModelVec.vec2_index S b a0 a1; Ret [index a1]))))
  | vec2__index_const =>
      on S (dV2 S) (fun a0 => on S (dU S) (fun a1 => on0 S (lift S (ret S (eF S)) (ModelVec.vec2_index S b a0 a1))))
  | vec3__default =>
      on0 S (ret S (eV3 S) (ModelVec.vec3_default S))
  | vec3__no_init_t =>
      on0 S (Ret (blank Cvec3, []))
  | vec3__float =>
      on S (dF S) (fun a0 => on0 S (ret S (eV3 S) (ModelVec.vec3_f S a0)))
  | vec3__int =>
      on S (dI S) (fun a0 => on0 S (ret S (eV3 S) (ModelVec.vec3_i S a0)))
  | vec3__float_float_float =>
      on S (dF S) (fun a0 => on S (dF S) (fun a1 => on S (dF S) (fun a2 => on0 S (ret S (eV3 S) (ModelVec.vec3_xyz S a0 a1 a2)))))
  | vec3__vec2_float =>
      on S (dV2 S) (fun a0 => on S (dF S) (fun a1 => on0 S (ret S (eV3 S) (ModelVec.vec3_v2f S a0 a1))))
  | vec3__float_vec2 =>
      on S (dF S) (fun a0 => on S (dV2 S) (fun a1 => on0 S (ret S (eV3 S) (ModelVec.vec3_fv2 S a0 a1))))
  | make_vec3_float_ptr =>
      on S (dPF S) (fun a0 => on0 S (lift S (ret S (eV3 S)) (ModelVec.make_vec3 S b a0)))
  | op_add_vec3_vec3 =>
      on S (dV3 S) (fun a0 => on S (dV3 S) (fun a1 => on0 S (ret S (eV3 S) (ModelVec.vec3_add S a0 a1))))
  | op_add_vec3_float =>
      on S (dV3 S) (fun a0 => on S (dF S) (fun a1 => on0 S (ret S (eV3 S) (ModelVec.vec3_add_sc S a0 a1))))
  | op_add_float_vec3 =>
      on S (dF S) (fun a0 => on S (dV3 S) (fun a1 => on0 S (ret S (eV3 S) (ModelVec.sc_add_vec3 S a0 a1))))
  | op_sub_vec3_vec3 =>
      on S (dV3 S) (fun a0 => on S (dV3 S) (fun a1 => on0 S (ret S (eV3 S) (ModelVec.vec3_sub S a0 a1))))
  | op_sub_vec3_float =>
      on S (dV3 S) (fun a0 => on S (dF S) (fun a1 => on0 S (ret S (eV3 S) (ModelVec.vec3_sub_sc S a0 a1))))
  | op_sub_float_vec3 =>
      on S (dF S) (fun a0 => on S (dV3 S) (fun a1 => on0 S (ret S (eV3 S) (ModelVec.sc_sub_vec3 S a0 a1))))
  | op_mul_vec3_vec3 =>
      on S (dV3 S) (fun a0 => on S (dV3 S) (fun a1 => on0 S (ret S (eV3 S) (ModelVec.vec3_mul S a0 a1))))
  | op_mul_vec3_float =>
      on S (dV3 S) (fun a0 => on S (dF S) (fun a1 => on0 S (ret S (eV3 S) (ModelVec.vec3_mul_sc S a0 a1))))
  | op_mul_float_vec3 =>
      on S (dF S) (fun a0 => on S (dV3 S) (fun a1 => on0 S (ret S (eV3 S) (ModelVec.sc_mul_vec3 S a0 a1))))
  | op_div_vec3_vec3 =>
      on S (dV3 S) (fun a0 => on S (dV3 S) (fun a1 => on0 S (ret S (eV3 S) (ModelVec.vec3_div S a0 a1))))
  | op_div_vec3_float =>
      on S (dV3 S) (fun a0 => on S (dF S) (fun a1 => on0 S (ret S (eV3 S) (ModelVec.vec3_div_sc S a0 a1))))
  | op_div_float_vec3 =>
      on S (dF S) (fun a0 => on S (dV3 S) (fun a1 => on0 S (ret S (eV3 S) (ModelVec.sc_div_vec3 S a0 a1))))
  | vec3__op_add_assign_vec3 =>
      on S (dV3 S) (fun a0 => on S (dV3 S) (fun a1 => on0 S (mutate S (eV3 S) (ModelVec.vec3_add_assign S (fun _ => a1) a0))))
  | vec3__op_add_assign_float =>
      on S (dV3 S) (fun a0 => on S (dF S) (fun a1 => on0 S (mutate S (eV3 S) (ModelVec.vec3_add_assign_sc S (fun _ => a1) a0))))
  | vec3__op_sub_assign_vec3 =>
      on S (dV3 S) (fun a0 => on S (dV3 S) (fun a1 => on0 S (mutate S (eV3 S) (ModelVec.vec3_sub_assign S (fun _ => a1) a0))))
  | vec3__op_sub_assign_float =>
      on S (dV3 S) (fun a0 => on S (dF S) (fun a1 => on0 S (mutate S (eV3 S) (ModelVec.vec3_sub_assign_sc S (fun _ => a1) a0))))
  | vec3__op_mul_assign_vec3 =>
      on S (dV3 S) (fun a0 => on S (dV3 S) (fun a1 => on0 S (mutate S (eV3 S) (ModelVec.vec3_mul_assign S (fun _ => a1) a0))))
  | vec3__op_mul_assign_float =>
      on S (dV3 S) (fun a0 => on S (dF S) (fun a1 => on0 S (mutate S (eV3 S) (ModelVec.vec3_mul_assign_sc S (fun _ => a1) a0))))
  | vec3__op_div_assign_vec3 =>
      on S (dV3 S) (fun a0 => on S (dV3 S) (fun a1 => on0 S (mutate S (eV3 S) (ModelVec.vec3_div_assign S (fun _ => a1) a0))))
  | vec3__op_div_assign_float =>
      on S (dV3 S) (fun a0 => on S (dF S) (fun a1 => on0 S (mutate S (eV3 S) (ModelVec.vec3_div_assign_sc S (fun _ => a1) a0))))
  | op_sub_vec3 =>
      on S (dV3 S) (fun a0 => on0 S (ret S (eV3 S) (ModelVec.vec3_neg S a0)))
  | op_add_vec3 =>
      on S (dV3 S) (fun a0 => on0 S (ret S (eV3 S) (ModelVec.vec3_pos S a0)))
  | vec3__preinc =>
      on S (dV3 S) (fun a0 => on0 S (pre S (eV3 S) (ModelVec.vec3_preinc S a0)))
  | vec3__postinc =>
      on S (dV3 S) (fun a0 => on0 S (post S (eV3 S) (ModelVec.vec3_postinc S a0)))
  | vec3__predec =>
      on S (dV3 S) (fun a0 => on0 S (pre S (eV3 S) (ModelVec.vec3_predec S a0)))
  | vec3__postdec =>
      on S (dV3 S) (fun a0 => on0 S (post S (eV3 S) (ModelVec.vec3_postdec S a0)))
  | op_eq_vec3_vec3 =>
      on S (dV3 S) (fun a0 => on S (dV3 S) (fun a1 => on0 S (ret S (eB S) (ModelVec.vec3_eq S a0 a1))))
  | op_ne_vec3_vec3 =>
      on S (dV3 S) (fun a0 => on S (dV3 S) (fun a1 => on0 S (ret S (eB S) (ModelVec.vec3_ne S a0 a1))))
  | vec3__index =>
      on S (dV3 S) (fun a0 => on S (dU S) (fun a1 => on0 S (at_index S (do _ <- ModelVec.vec3_index S b a0 a1; Ret [index a1]))))
  | vec3__index_const =>
      on S (dV3 S) (fun a0 => on S (dU S) (fun a1 => on0 S (lift S (ret S (eF S)) (ModelVec.vec3_index S b a0 a1))))
  | vec4__default =>
      on0 S (ret S (eV4 S) (ModelVec.vec4_default S))
  | vec4__no_init_t =>
      on0 S (Ret (blank Cvec4, []))
  | vec4__float =>
      on S (dF S) (fun a0 => on0 S (ret S (eV4 S) (ModelVec.vec4_f S a0)))
  | vec4__int =>
      on S (dI S) (fun a0 => on0 S (ret S (eV4 S) (ModelVec.vec4_i S a0)))
  | vec4__float_float_float_float =>
      on S (dF S) (fun a0 => on S (dF S) (fun a1 => on S (dF S) (fun a2 => on S (dF S) (fun a3 => on0 S (ret S (eV4 S) (ModelVec.vec4_xyzw S a0 a1 a2 a3))))))
  | vec4__vec3_float =>
      on S (dV3 S) (fun a0 => on S (dF S) (fun a1 => on0 S (ret S (eV4 S) (ModelVec.vec4_v3f S a0 a1))))
  | vec4__float_vec3 =>
      on S (dF S) (fun a0 => on S (dV3 S) (fun a1 => on0 S (ret S (eV4 S) (ModelVec.vec4_fv3 S a0 a1))))
  | vec4__vec2_vec2 =>
      on S (dV2 S) (fun a0 => on S (dV2 S) (fun a1 => on0 S (ret S (eV4 S) (ModelVec.vec4_v2v2 S a0 a1))))
  | vec4__vec2_float_float =>
      on S (dV2 S) (fun a0 => on S (dF S) (fun a1 => on S (dF S) (fun a2 => on0 S (ret S (eV4 S) (ModelVec.vec4_v2ff S a0 a1 a2)))))
  | vec4__float_vec2_float =>
      on S (dF S) (fun a0 => on S (dV2 S) (fun a1 => on S (dF S) (fun a2 => on0 S (ret S (eV4 S) (ModelVec.vec4_fv2f S a0 a1 a2)))))
  | vec4__float_float_vec2 =>
      on S (dF S) (fun a0 => on S (dF S) (fun a1 => on S (dV2 S) (fun a2 => on0 S (ret S (eV4 S) (ModelVec.vec4_ffv2 S a0 a1 a2)))))
  | make_vec4_float_ptr =>
      on S (dPF S) (fun a0 => on0 S (lift S (ret S (eV4 S)) (ModelVec.make_vec4 S b a0)))
  | op_add_vec4_vec4 =>
      on S (dV4 S) (fun a0 => on S (dV4 S) (fun a1 => on0 S (ret S (eV4 S) (ModelVec.vec4_add S a0 a1))))
  | op_add_vec4_float =>
      on S (dV4 S) (fun a0 => on S (dF S) (fun a1 => on0 S (ret S (eV4 S) (ModelVec.vec4_add_sc S a0 a1))))
  | op_add_float_vec4 =>
      on S (dF S) (fun a0 => on S (dV4 S) (fun a1 => on0 S (ret S (eV4 S) (ModelVec.sc_add_vec4 S a0 a1))))
  | op_sub_vec4_vec4 =>
      on S (dV4 S) (fun a0 => on S (dV4 S) (fun a1 => on0 S (ret S (eV4 S) (ModelVec.vec4_sub S a0 a1))))
  | op_sub_vec4_float =>
      on S (dV4 S) (fun a0 => on S (dF S) (fun a1 => on0 S (ret S (eV4 S) (ModelVec.vec4_sub_sc S a0 a1))))
  | op_sub_float_vec4 =>
      on S (dF S) (fun a0 => on S (dV4 S) (fun a1 => on0 S (ret S (eV4 S) (ModelVec.sc_sub_vec4 S a0 a1))))
  | op_mul_vec4_vec4 =>
      on S (dV4 S) (fun a0 => on S (dV4 S) (fun a1 => on0 S (ret S (eV4 S) (ModelVec.vec4_mul S a0 a1))))
  | op_mul_vec4_float =>
      on S (dV4 S) (fun a0 => on S (dF S) (fun a1 => on0 S (ret S (eV4 S) (ModelVec.vec4_mul_sc S a0 a1))))
  | op_mul_float_vec4 =>
      on S (dF S) (fun a0 => on S (dV4 S) (fun a1 => on0 S (ret S (eV4 S) (ModelVec.sc_mul_vec4 S a0 a1))))
  | op_div_vec4_vec4 =>
      on S (dV4 S) (fun a0 => on S (dV4 S) (fun a1 => on0 S (ret S (eV4 S) (ModelVec.vec4_div S a0 a1))))
  | op_div_vec4_float =>
      on S (dV4 S) (fun a0 => on S (dF S) (fun a1 => on0 S (ret S (eV4 S) (ModelVec.vec4_div_sc S a0 a1))))
  | op_div_float_vec4 =>
      on S (dF S) (fun a0 => on S (dV4 S) (fun a1 => on0 S (ret S (eV4 S) (ModelVec.sc_div_vec4 S a0 a1))))
  | vec4__op_add_assign_vec4 =>
      on S (dV4 S) (fun a0 => on S (dV4 S) (fun a1 => on0 S (mutate S (eV4 S) (ModelVec.vec4_add_assign S (fun _ => a1) a0))))
  | vec4__op_add_assign_float =>
      on S (dV4 S) (fun a0 => on S (dF S) (fun a1 => on0 S (mutate S (eV4 S) (ModelVec.vec4_add_assign_sc S (fun _ => a1) a0))))
  | vec4__op_sub_assign_vec4 =>
      on S (dV4 S) (fun a0 => on S (dV4 S) (fun a1 => on0 S (mutate S (eV4 S) (ModelVec.vec4_sub_assign S (fun _ => a1) a0))))
  | vec4__op_sub_assign_float =>
      on S (dV4 S) (fun a0 => on S (dF S) (fun a1 => on0 S (mutate S (eV4 S) (ModelVec.vec4_sub_assign_sc S (fun _ => a1) a0))))
  | vec4__op_mul_assign_vec4 =>
      on S (dV4 S) (fun a0 => on S (dV4 S) (fun a1 => on0 S (mutate S (eV4 S) (ModelVec.vec4_mul_assign S (fun _ => a1) a0))))
  | vec4__op_mul_assign_float =>
      on S (dV4 S) (fun a0 => on S (dF S) (fun a1 => on0 S (mutate S (eV4 S) (ModelVec.vec4_mul_assign_sc S (fun _ => a1) a0))))
  | vec4__op_div_assign_vec4 =>
      on S (dV4 S) (fun a0 => on S (dV4 S) (fun a1 => on0 S (mutate S (eV4 S) (ModelVec.vec4_div_assign S (fun _ => a1) a0))))
  | vec4__op_div_assign_float =>
      on S (dV4 S) (fun a0 => on S (dF S) (fun a1 => on0 S (mutate S (eV4 S) (ModelVec.vec4_div_assign_sc S (fun _ => a1) a0))))
  | op_sub_vec4 =>
      on S (dV4 S) (fun a0 => on0 S (ret S (eV4 S) (ModelVec.vec4_neg S a0)))
  | op_add_vec4 =>
      on S (dV4 S) (fun a0 => on0 S (ret S (eV4 S) (ModelVec.vec4_pos S a0)))
  | vec4__preinc =>
      on S (dV4 S) (fun a0 => on0 S (pre S (eV4 S) (ModelVec.vec4_preinc S a0)))
  | vec4__postinc =>
      on S (dV4 S) (fun a0 => on0 S (post S (eV4 S) (ModelVec.vec4_postinc S a0)))
  | vec4__predec =>
      on S (dV4 S) (fun a0 => on0 S (pre S (eV4 S) (ModelVec.vec4_predec S a0)))
  | vec4__postdec =>
      on S (dV4 S) (fun a0 => on0 S (post S (eV4 S) (ModelVec.vec4_postdec S a0)))
  | op_eq_vec4_vec4 =>
      on S (dV4 S) (fun a0 => on S (dV4 S) (fun a1 => on0 S (ret S (eB S) (ModelVec.vec4_eq S a0 a1))))
  | op_ne_vec4_vec4 =>
      on S (dV4 S) (fun a0 => on S (dV4 S) (fun a1 => on0 S (ret S (eB S) (ModelVec.vec4_ne S a0 a1))))
  | vec4__index =>
      on S (dV4 S) (fun a0 => on S (dU S) (fun a1 => on0 S (at_index S (do _ <- ModelVec.vec4_index S b a0 a1; Ret [index a1]))))
  | vec4__index_const =>
      on S (dV4 S) (fun a0 => on S (dU S) (fun a1 => on0 S (lift S (ret S (eF S)) (ModelVec.vec4_index S b a0 a1))))
  | ivec2__default =>
      on0 S (ret S (eI2 S) (ModelIVec.ivec2_default))
  | ivec2__no_init_t =>
      on0 S (Ret (blank Civec2, []))
  | ivec2__int =>
      on S (dI S) (fun a0 => on0 S (ret S (eI2 S) (ModelIVec.ivec2_i a0)))
  | ivec2__int_int =>
      on S (dI S) (fun a0 => on S (dI S) (fun a1 => on0 S (ret S (eI2 S) (ModelIVec.ivec2_xy a0 a1))))
  | op_add_ivec2 =>
      on S (dI2 S) (fun a0 => on0 S (ret S (eI2 S) (ModelIVec.ivec2_pos a0)))
  | op_sub_ivec2 =>
      on S (dI2 S) (fun a0 => on0 S (lift S (ret S (eI2 S)) (ModelIVec.ivec2_neg a0)))
  | make_ivec2_int_ptr =>
      on S (dPI S) (fun a0 => on0 S (lift S (ret S (eI2 S)) (ModelIVec.make_ivec2 b a0)))
  | op_add_ivec2_ivec2 =>
      on S (dI2 S) (fun a0 => on S (dI2 S) (fun a1 => on0 S (lift S (ret S (eI2 S)) (ModelIVec.ivec2_add a0 a1))))
  | op_add_ivec2_int =>
      on S (dI2 S) (fun a0 => on S (dI S) (fun a1 => on0 S (lift S (ret S (eI2 S)) (ModelIVec.ivec2_add_sc a0 a1))))
  | op_add_int_ivec2 =>
      on S (dI S) (fun a0 => on S (dI2 S) (fun a1 => on0 S (lift S (ret S (eI2 S)) (ModelIVec.sc_add_ivec2 a0 a1))))
  | op_sub_ivec2_ivec2 =>
      on S (dI2 S) (fun a0 => on S (dI2 S) (fun a1 => on0 S (lift S (ret S (eI2 S)) (ModelIVec.ivec2_sub a0 a1))))
  | op_sub_ivec2_int =>
      on S (dI2 S) (fun a0 => on S (dI S) (fun a1 => on0 S (lift S (ret S (eI2 S)) (ModelIVec.ivec2_sub_sc a0 a1))))
  | op_sub_int_ivec2 =>
      on S (dI S) (fun a0 => on S (dI2 S) (fun a1 => on0 S (lift S (ret S (eI2 S)) (ModelIVec.sc_sub_ivec2 a0 a1))))
  | op_mul_ivec2_ivec2 =>
      on S (dI2 S) (fun a0 => on S (dI2 S) (fun a1 => on0 S (lift S (ret S (eI2 S)) (ModelIVec.ivec2_mul a0 a1))))
  | op_mul_ivec2_int =>
      on S (dI2 S) (fun a0 => on S (dI S) (fun a1 => on0 S (lift S (ret S (eI2 S)) (ModelIVec.ivec2_mul_sc a0 a1))))
  | op_mul_int_ivec2 =>
      on S (dI S) (fun a0 => on S (dI2 S) (fun a1 => on0 S (lift S (ret S (eI2 S)) (ModelIVec.sc_mul_ivec2 a0 a1))))
  | op_div_ivec2_ivec2 =>
      on S (dI2 S) (fun a0 => on S (dI2 S) (fun a1 => on0 S (lift S (ret S (eI2 S)) (ModelIVec.ivec2_div a0 a1))))
  | op_div_ivec2_int =>
      on S (dI2 S) (fun a0 => on S (dI S) (fun a1 => on0 S (lift S (ret S (eI2 S)) (ModelIVec.ivec2_div_sc a0 a1))))
  | op_div_int_ivec2 =>
      on S (dI S) (fun a0 => on S (dI2 S) (fun a1 => on0 S (lift S (ret S (eI2 S)) (ModelIVec.sc_div_ivec2 a0 a1))))
  | op_rem_ivec2_ivec2 =>
      on S (dI2 S) (fun a0 => on S (dI2 S) (fun a1 => on0 S (lift S (ret S (eI2 S)) (ModelIVec.ivec2_rem a0 a1))))
  | op_rem_ivec2_int =>
      on S (dI2 S) (fun a0 => on S (dI S) (fun a1 => on0 S (lift S (ret S (eI2 S)) (ModelIVec.ivec2_rem_sc a0 a1))))
  | op_rem_int_ivec2 =>
      on S (dI S) (fun a0 => on S (dI2 S) (fun a1 => on0 S (lift S (ret S (eI2 S)) (ModelIVec.sc_rem_ivec2 a0 a1))))
  | op_or_ivec2_ivec2 =>
      on S (dI2 S) (fun a0 => on S (dI2 S) (fun a1 => on0 S (lift S (ret S (eI2 S)) (ModelIVec.ivec2_or a0 a1))))
  | op_or_ivec2_int =>
      on S (dI2 S) (fun a0 => on S (dI S) (fun a1 => on0 S (lift S (ret S (eI2 S)) (ModelIVec.ivec2_or_sc a0 a1))))
  | op_or_int_ivec2 =>
      on S (dI S) (fun a0 => on S (dI2 S) (fun a1 => on0 S (lift S (ret S (eI2 S)) (ModelIVec.sc_or_ivec2 a0 a1))))
  | op_and_ivec2_ivec2 =>
      on S (dI2 S) (fun a0 => on S (dI2 S) (fun a1 => on0 S (lift S (ret S (eI2 S)) (ModelIVec.ivec2_and a0 a1))))
  | op_and_ivec2_int =>
      on S (dI2 S) (fun a0 => on S (dI S) (fun a1 => on0 S (lift S (ret S (eI2 S)) (ModelIVec.ivec2_and_sc a0 a1))))
  | op_and_int_ivec2 =>
      on S (dI S) (fun a0 => on S (dI2 S) (fun a1 => on0 S (lift S (ret S (eI2 S)) (ModelIVec.sc_and_ivec2 a0 a1))))
  | op_xor_ivec2_ivec2 =>
      on S (dI2 S) (fun a0 => on S (dI2 S) (fun a1 => on0 S (lift S (ret S (eI2 S)) (ModelIVec.ivec2_xor a0 a1))))
  | op_xor_ivec2_int =>
      on S (dI2 S) (fun a0 => on S (dI S) (fun a1 => on0 S (lift S (ret S (eI2 S)) (ModelIVec.ivec2_xor_sc a0 a1))))
  | op_xor_int_ivec2 =>
      on S (dI S) (fun a0 => on S (dI2 S) (fun a1 => on0 S (lift S (ret S (eI2 S)) (ModelIVec.sc_xor_ivec2 a0 a1))))
  | op_shr_ivec2_ivec2 =>
      on S (dI2 S) (fun a0 => on S (dI2 S) (fun a1 => on0 S (lift S (ret S (eI2 S)) (ModelIVec.ivec2_shr a0 a1))))
  | op_shr_ivec2_int =>
      on S (dI2 S) (fun a0 => on S (dI S) (fun a1 => on0 S (lift S (ret S (eI2 S)) (ModelIVec.ivec2_shr_sc a0 a1))))
  | op_shr_int_ivec2 =>
      on S (dI S) (fun a0 => on S (dI2 S) (fun a1 => on0 S (lift S (ret S (eI2 S)) (ModelIVec.sc_shr_ivec2 a0 a1))))
  | op_shl_ivec2_ivec2 =>
      on S (dI2 S) (fun a0 => on S (dI2 S) (fun a1 => on0 S (lift S (ret S (eI2 S)) (ModelIVec.ivec2_shl a0 a1))))
  | op_shl_ivec2_int =>
      on S (dI2 S) (fun a0 => on S (dI S) (fun a1 => on0 S (lift S (ret S (eI2 S)) (ModelIVec.ivec2_shl_sc a0 a1))))
  | op_shl_int_ivec2 =>
      on S (dI S) (fun a0 => on S (dI2 S) (fun a1 => on0 S (lift S (ret S (eI2 S)) (ModelIVec.sc_shl_ivec2 a0 a1))))
  | ivec2__op_add_assign_ivec2 =>
      on S (dI2 S) (fun a0 => on S (dI2 S) (fun a1 => on0 S (lift S (mutate S (eI2 S)) (ModelIVec.ivec2_add_assign (fun _ => a1) a0))))
  | ivec2__op_add_assign_int =>
      on S (dI2 S) (fun a0 => on S (dI S) (fun a1 => on0 S (lift S (mutate S (eI2 S)) (ModelIVec.ivec2_add_assign_sc (fun _ => a1) a0))))
  | ivec2__op_sub_assign_ivec2 =>
      on S (dI2 S) (fun a0 => on S (dI2 S) (fun a1 => on0 S (lift S (mutate S (eI2 S)) (ModelIVec.ivec2_sub_assign (fun _ => a1) a0))))
  | ivec2__op_sub_assign_int =>
      on S (dI2 S) (fun a0 => on S (dI S) (fun a1 => on0 S (lift S (mutate S (eI2 S)) (ModelIVec.ivec2_sub_assign_sc (fun _ => a1) a0))))
  | ivec2__op_mul_assign_ivec2 =>
      on S (dI2 S) (fun a0 => on S (dI2 S) (fun a1 => on0 S (lift S (mutate S (eI2 S)) (ModelIVec.ivec2_mul_assign (fun _ => a1) a0))))
  | ivec2__op_mul_assign_int =>
      on S (dI2 S) (fun a0 => on S (dI S) (fun a1 => on0 S (lift S (mutate S (eI2 S)) (ModelIVec.ivec2_mul_assign_sc (fun _ => a1) a0))))
  | ivec2__op_div_assign_ivec2 =>
      on S (dI2 S) (fun a0 => on S (dI2 S) (fun a1 => on0 S (lift S (mutate S (eI2 S)) (ModelIVec.ivec2_div_assign (fun _ => a1) a0))))
  | ivec2__op_div_assign_int =>
      on S (dI2 S) (fun a0 => on S (dI S) (fun a1 => on0 S (lift S (mutate S (eI2 S)) (ModelIVec.ivec2_div_assign_sc (fun _ => a1) a0))))
  | ivec2__op_rem_assign_ivec2 =>
      on S (dI2 S) (fun a0 => on S (dI2 S) (fun a1 => on0 S (lift S (mutate S (eI2 S)) (ModelIVec.ivec2_rem_assign (fun _ => a1) a0))))
  | ivec2__op_rem_assign_int =>
      on S (dI2 S) (fun a0 => on S (dI S) (fun a1 => on0 S (lift S (mutate S (eI2 S)) (ModelIVec.ivec2_rem_assign_sc (fun _ => a1) a0))))
  | ivec2__op_or_assign_ivec2 =>
      on S (dI2 S) (fun a0 => on S (dI2 S) (fun a1 => on0 S (lift S (mutate S (eI2 S)) (ModelIVec.ivec2_or_assign (fun _ => a1) a0))))
  | ivec2__op_or_assign_int =>
      on S (dI2 S) (fun a0 => on S (dI S) (fun a1 => on0 S (lift S (mutate S (eI2 S)) (ModelIVec.ivec2_or_assign_sc (fun _ => a1) a0))))
  | ivec2__op_and_assign_ivec2 =>
      on S (dI2 S) (fun a0 => on S (dI2 S) (fun a1 => on0 S (lift S (mutate S (eI2 S)) (ModelIVec.ivec2_and_assign (fun _ => a1) a0))))
  | ivec2__op_and_assign_int =>
      on S (dI2 S) (fun a0 => on S (dI S) (fun a1 => on0 S (lift S (mutate S (eI2 S)) (ModelIVec.ivec2_and_assign_sc (fun _ => a1) a0))))
  | ivec2__op_xor_assign_ivec2 =>
      on S (dI2 S) (fun a0 => on S (dI2 S) (fun a1 => on0 S (lift S (mutate S (eI2 S)) (ModelIVec.ivec2_xor_assign (fun _ => a1) a0))))
  | ivec2__op_xor_assign_int =>
      on S (dI2 S) (fun a0 => on S (dI S) (fun a1 => on0 S (lift S (mutate S (eI2 S)) (ModelIVec.ivec2_xor_assign_sc (fun _ => a1) a0))))
  | ivec2__op_shr_assign_ivec2 =>
      on S (dI2 S) (fun a0 => on S (dI2 S) (fun a1 => on0 S (lift S (mutate S (eI2 S)) (ModelIVec.ivec2_shr_assign (fun _ => a1) a0))))
  | ivec2__op_shr_assign_int =>
      on S (dI2 S) (fun a0 => on S (dI S) (fun a1 => on0 S (lift S (mutate S (eI2 S)) (ModelIVec.ivec2_shr_assign_sc (fun _ => a1) a0))))
  | ivec2__op_shl_assign_ivec2 =>
      on S (dI2 S) (fun a0 => on S (dI2 S) (fun a1 => on0 S (lift S (mutate S (eI2 S)) (ModelIVec.ivec2_shl_assign (fun _ => a1) a0))))
  | ivec2__op_shl_assign_int =>
      on S (dI2 S) (fun a0 => on S (dI S) (fun a1 => on0 S (lift S (mutate S (eI2 S)) (ModelIVec.ivec2_shl_assign_sc (fun _ => a1) a0))))
  | op_eq_ivec2_ivec2 =>
      on S (dI2 S) (fun a0 => on S (dI2 S) (fun a1 => on0 S (ret S (eB S) (ModelIVec.ivec2_eq a0 a1))))
  | op_ne_ivec2_ivec2 =>
      on S (dI2 S) (fun a0 => on S (dI2 S) (fun a1 => on0 S (ret S (eB S) (ModelIVec.ivec2_ne a0 a1))))
  | op_lt_ivec2_ivec2 =>
      on S (dI2 S) (fun a0 => on S (dI2 S) (fun a1 => on0 S (ret S (eB S) (ModelIVec.ivec2_lt a0 a1))))
  | op_le_ivec2_ivec2 =>
      on S (dI2 S) (fun a0 => on S (dI2 S) (fun a1 => on0 S (ret S (eB S) (ModelIVec.ivec2_le a0 a1))))
  | op_gt_ivec2_ivec2 =>
      on S (dI2 S) (fun a0 => on S (dI2 S) (fun a1 => on0 S (ret S (eB S) (ModelIVec.ivec2_gt a0 a1))))
  | op_ge_ivec2_ivec2 =>
      on S (dI2 S) (fun a0 => on S (dI2 S) (fun a1 => on0 S (ret S (eB S) (ModelIVec.ivec2_ge a0 a1))))
  | ivec2__index =>
      on S (dI2 S) (fun a0 => on S (dU S) (fun a1 => on0 S (at_index S (do _ <- ModelIVec.ivec2_index b a0 a1; Ret [index a1]))))
  | ivec2__index_const =>
      on S (dI2 S) (fun a0 => on S (dU S) (fun a1 => on0 S (lift S (ret S (eI S)) (ModelIVec.ivec2_index b a0 a1))))
  | ivec2__to_bvec2 =>
      on S (dI2 S) (fun a0 => on0 S (ret S (eB2 S) (ModelIVec.ivec2_to_bvec2 a0)))
  | ivec2__preinc =>
      on S (dI2 S) (fun a0 => on0 S (lift S (pre S (eI2 S)) (ModelIVec.ivec2_preinc a0)))
  | ivec2__postinc =>
      on S (dI2 S) (fun a0 => on0 S (lift S (post S (eI2 S)) (ModelIVec.ivec2_postinc a0)))
  | ivec2__predec =>
      on S (dI2 S) (fun a0 => on0 S (lift S (pre S (eI2 S)) (ModelIVec.ivec2_predec a0)))
  | ivec2__postdec =>
      on S (dI2 S) (fun a0 => on0 S (lift S (post S (eI2 S)) (ModelIVec.ivec2_postdec a0)))
  | ivec3__default =>
      on0 S (ret S (eI3 S) (ModelIVec.ivec3_default))
  | ivec3__no_init_t =>
      on0 S (Ret (blank Civec3, []))
  | ivec3__int =>
      on S (dI S) (fun a0 => on0 S (ret S (eI3 S) (ModelIVec.ivec3_i a0)))
  | ivec3__int_int_int =>
      on S (dI S) (fun a0 => on S (dI S) (fun a1 => on S (dI S) (fun a2 => on0 S (ret S (eI3 S) (ModelIVec.ivec3_xyz a0 a1 a2)))))
  | ivec3__ivec2_int =>
      on S (dI2 S) (fun a0 => on S (dI S) (fun a1 => on0 S (ret S (eI3 S) (ModelIVec.ivec3_v2i a0 a1))))
  | ivec3__int_ivec2 =>
      on S (dI S) (fun a0 => on S (dI2 S) (fun a1 => on0 S (ret S (eI3 S) (ModelIVec.ivec3_iv2 a0 a1))))
  | make_ivec3_int_ptr =>
      on S (dPI S) (fun a0 => on0 S (lift S (ret S (eI3 S)) (ModelIVec.make_ivec3 b a0)))
  | op_add_ivec3_ivec3 =>
      on S (dI3 S) (fun a0 => on S (dI3 S) (fun a1 => on0 S (lift S (ret S (eI3 S)) (ModelIVec.ivec3_add a0 a1))))
  | op_add_ivec3_int =>
      on S (dI3 S) (fun a0 => on S (dI S) (fun a1 => on0 S (lift S (ret S (eI3 S)) (ModelIVec.ivec3_add_sc a0 a1))))
  | op_add_int_ivec3 =>
      on S (dI S) (fun a0 => on S (dI3 S) (fun a1 => on0 S (lift S (ret S (eI3 S)) (ModelIVec.sc_add_ivec3 a0 a1))))
  | op_sub_ivec3_ivec3 =>
      on S (dI3 S) (fun a0 => on S (dI3 S) (fun a1 => on0 S (lift S (ret S (eI3 S)) (ModelIVec.ivec3_sub a0 a1))))
  | op_sub_ivec3_int =>
      on S (dI3 S) (fun a0 => on S (dI S) (fun a1 => on0 S (lift S (ret S (eI3 S)) (ModelIVec.ivec3_sub_sc a0 a1))))
  | op_sub_int_ivec3 =>
      on S (dI S) (fun a0 => on S (dI3 S) (fun a1 => on0 S (lift S (ret S (eI3 S)) (ModelIVec.sc_sub_ivec3 a0 a1))))
  | op_mul_ivec3_ivec3 =>
      on S (dI3 S) (fun a0 => on S (dI3 S) (fun a1 => on0 S (lift S (ret S (eI3 S)) (ModelIVec.ivec3_mul a0 a1))))
  | op_mul_ivec3_int =>
      on S (dI3 S) (fun a0 => on S (dI S) (fun a1 => on0 S (lift S (ret S (eI3 S)) (ModelIVec.ivec3_mul_sc a0 a1))))
  | op_mul_int_ivec3 =>
      on S (dI S) (fun a0 => on S (dI3 S) (fun a1 => on0 S (lift S (ret S (eI3 S)) (ModelIVec.sc_mul_ivec3 a0 a1))))
  | op_div_ivec3_ivec3 =>
      on S (dI3 S) (fun a0 => on S (dI3 S) (fun a1 => on0 S (lift S (ret S (eI3 S)) (ModelIVec.ivec3_div a0 a1))))
  | op_div_ivec3_int =>
      on S (dI3 S) (fun a0 => on S (dI S) (fun a1 => on0 S (lift S (ret S (eI3 S)) (ModelIVec.ivec3_div_sc a0 a1))))
  | op_div_int_ivec3 =>
      on S (dI S) (fun a0 => on S (dI3 S) (fun a1 => on0 S (lift S (ret S (eI3 S)) (ModelIVec.sc_div_ivec3 a0 a1))))
  | op_rem_ivec3_ivec3 =>
      on S (dI3 S) (fun a0 => on S (dI3 S) (fun a1 => on0 S (lift S (ret S (eI3 S)) (ModelIVec.ivec3_rem a0 a1))))
  | op_rem_ivec3_int =>
      on S (dI3 S) (fun a0 => on S (dI S) (fun a1 => on0 S (lift S (ret S (eI3 S)) (ModelIVec.ivec3_rem_sc a0 a1))))
  | op_rem_int_ivec3 =>
      on S (dI S) (fun a0 => on S (dI3 S) (fun a1 => on0 S (lift S (ret S (eI3 S)) (ModelIVec.sc_rem_ivec3 a0 a1))))
  | op_or_ivec3_ivec3 =>
      on S (dI3 S) (fun a0 => on S (dI3 S) (fun a1 => on0 S (lift S (ret S (eI3 S)) (ModelIVec.ivec3_or a0 a1))))
  | op_or_ivec3_int =>
      on S (dI3 S) (fun a0 => on S (dI S) (fun a1 => on0 S (lift S (ret S (eI3 S)) (ModelIVec.ivec3_or_sc a0 a1))))
  | op_or_int_ivec3 =>
      on S (dI S) (fun a0 => on S (dI3 S) (fun a1 => on0 S (lift S (ret S (eI3 S)) (ModelIVec.sc_or_ivec3 a0 a1))))
  | op_and_ivec3_ivec3 =>
      on S (dI3 S) (fun a0 => on S (dI3 S) (fun a1 => on0 S (lift S (ret S (eI3 S)) (ModelIVec.ivec3_and a0 a1))))
  | op_and_ivec3_int =>
      on S (dI3 S) (fun a0 => on S (dI S) (fun a1 => on0 S (lift S (ret S (eI3 S)) (ModelIVec.ivec3_and_sc a0 a1))))
  | op_and_int_ivec3 =>
      on S (dI S) (fun a0 => on S (dI3 S) (fun a1 => on0 S (lift S (ret S (eI3 S)) (ModelIVec.sc_and_ivec3 a0 a1))))
  | op_xor_ivec3_ivec3 =>
      on S (dI3 S) (fun a0 => on S (dI3 S) (fun a1 => on0 S (lift S (ret S (eI3 S)) (ModelIVec.ivec3_xor a0 a1))))
  | op_xor_ivec3_int =>
      on S (dI3 S) (fun a0 => on S (dI S) (fun a1 => on0 S (lift S (ret S (eI3 S)) (ModelIVec.ivec3_xor_sc a0 a1))))
  | op_xor_int_ivec3 =>
      on S (dI S) (fun a0 => on S (dI3 S) (fun a1 => on0 S (lift S (ret S (eI3 S)) (ModelIVec.sc_xor_ivec3 a0 a1))))
  | op_shr_ivec3_ivec3 =>
      on S (dI3 S) (fun a0 => on S (dI3 S) (fun a1 => on0 S (lift S (ret S (eI3 S)) (ModelIVec.ivec3_shr a0 a1))))
  | op_shr_ivec3_int =>
      on S (dI3 S) (fun a0 => on S (dI S) (fun a1 => on0 S (lift S (ret S (eI3 S)) (ModelIVec.ivec3_shr_sc a0 a1))))
  | op_shr_int_ivec3 =>
      on S (dI S) (fun a0 => on S (dI3 S) (fun a1 => on0 S (lift S (ret S (eI3 S)) (ModelIVec.sc_shr_ivec3 a0 a1))))
  | op_shl_ivec3_ivec3 =>
      on S (dI3 S) (fun a0 => on S (dI3 S) (fun a1 => on0 S (lift S (ret S (eI3 S)) (ModelIVec.ivec3_shl a0 a1))))
  | op_shl_ivec3_int =>
      on S (dI3 S) (fun a0 => on S (dI S) (fun a1 => on0 S (lift S (ret S (eI3 S)) (ModelIVec.ivec3_shl_sc a0 a1))))
  | op_shl_int_ivec3 =>
      on S (dI S) (fun a0 => on S (dI3 S) (fun a1 => on0 S (lift S (ret S (eI3 S)) (ModelIVec.sc_shl_ivec3 a0 a1))))
  | ivec3__op_add_assign_ivec3 =>
      on S (dI3 S) (fun a0 => on S (dI3 S) (fun a1 => on0 S (lift S (mutate S (eI3 S)) (ModelIVec.ivec3_add_assign (fun _ => a1) a0))))
  | ivec3__op_add_assign_int =>
      on S (dI3 S) (fun a0 => on S (dI S) (fun a1 => on0 S (lift S (mutate S (eI3 S)) (ModelIVec.ivec3_add_assign_sc (fun _ => a1) a0))))
  | ivec3__op_sub_assign_ivec3 =>
      on S (dI3 S) (fun a0 => on S (dI3 S) (fun a1 => on0 S (lift S (mutate S (eI3 S)) (ModelIVec.ivec3_sub_assign (fun _ => a1) a0))))
  | ivec3__op_sub_assign_int =>
      on S (dI3 S) (fun a0 => on S (dI S) (fun a1 => on0 S (lift S (mutate S (eI3 S)) (ModelIVec.ivec3_sub_assign_sc (fun _ => a1) a0))))
  | ivec3__op_mul_assign_ivec3 =>
      on S (dI3 S) (fun a0 => on S (dI3 S) (fun a1 => on0 S (lift S (mutate S (eI3 S)) (ModelIVec.ivec3_mul_assign (fun _ => a1) a0))))
  | ivec3__op_mul_assign_int =>
      on S (dI3 S) (fun a0 => on S (dI S) (fun a1 => on0 S (lift S (mutate S (eI3 S)) (ModelIVec.ivec3_mul_assign_sc (fun _ => a1) a0))))
  | ivec3__op_div_assign_ivec3 =>
      on S (dI3 S) (fun a0 => on S (dI3 S) (fun a1 => on0 S (lift S (mutate S (eI3 S)) (ModelIVec.ivec3_div_assign (fun _ => a1) a0))))
  | ivec3__op_div_assign_int =>
      on S (dI3 S) (fun a0 => on S (dI S) (fun a1 => on0 S (lift S (mutate S (eI3 S)) (ModelIVec.ivec3_div_assign_sc (fun _ => a1) a0))))
  | ivec3__op_rem_assign_ivec3 =>
      on S (dI3 S) (fun a0 => on S (dI3 S) (fun a1 => on0 S (lift S (mutate S (eI3 S)) (ModelIVec.ivec3_rem_assign (fun _ => a1) a0))))
  | ivec3__op_rem_assign_int =>
      on S (dI3 S) (fun a0 => on S (dI S) (fun a1 => on0 S (lift S (mutate S (eI3 S)) (ModelIVec.ivec3_rem_assign_sc (fun _ => a1) a0))))
  | ivec3__op_or_assign_ivec3 =>
      on S (dI3 S) (fun a0 => on S (dI3 S) (fun a1 => on0 S (lift S (mutate S (eI3 S)) (ModelIVec.ivec3_or_assign (fun _ => a1) a0))))
  | ivec3__op_or_assign_int =>
      on S (dI3 S) (fun a0 => on S (dI S) (fun a1 => on0 S (lift S (mutate S (eI3 S)) (ModelIVec.ivec3_or_assign_sc (fun _ => a1) a0))))
  | ivec3__op_and_assign_ivec3 =>
      on S (dI3 S) (fun a0 => on S (dI3 S) (fun a1 => on0 S (lift S (mutate S (eI3 S)) (ModelIVec.ivec3_and_assign (fun _ => a1) a0))))
  | ivec3__op_and_assign_int =>
      on S (dI3 S) (fun a0 => on S (dI S) (fun a1 => on0 S (lift S (mutate S (eI3 S)) (ModelIVec.ivec3_and_assign_sc (fun _ => a1) a0))))
  | ivec3__op_xor_assign_ivec3 =>
      on S (dI3 S) (fun a0 => on S (dI3 S) (fun a1 => on0 S (lift S (mutate S (eI3 S)) (ModelIVec.ivec3_xor_assign (fun _ => a1) a0))))
  | ivec3__op_xor_assign_int =>
      on S (dI3 S) (fun a0 => on S (dI S) (fun a1 => on0 S (lift S (mutate S (eI3 S)) (ModelIVec.ivec3_xor_assign_sc (fun _ => a1) a0))))
  | ivec3__op_shr_assign_ivec3 =>
      on S (dI3 S) (fun a0 => on S (dI3 S) (fun a1 => on0 S (lift S (mutate S (eI3 S)) (ModelIVec.ivec3_shr_assign (fun _ => a1) a0))))
  | ivec3__op_shr_assign_int =>
      on S (dI3 S) (fun a0 => on S (dI S) (fun a1 => on0 S (lift S (mutate S (eI3 S)) (ModelIVec.ivec3_shr_assign_sc (fun _ => a1) a0))))
  | ivec3__op_shl_assign_ivec3 =>
      on S (dI3 S) (fun a0 => on S (dI3 S) (fun a1 => on0 S (lift S (mutate S (eI3 S)) (ModelIVec.ivec3_shl_assign (fun _ => a1) a0))))
  | ivec3__op_shl_assign_int =>
      on S (dI3 S) (fun a0 => on S (dI S) (fun a1 => on0 S (lift S (mutate S (eI3 S)) (ModelIVec.ivec3_shl_assign_sc (fun _ => a1) a0))))
  | op_sub_ivec3 =>
      on S (dI3 S) (fun a0 => on0 S (lift S (ret S (eI3 S)) (ModelIVec.ivec3_neg a0)))
  | op_add_ivec3 =>
      on S (dI3 S) (fun a0 => on0 S (ret S (eI3 S) (ModelIVec.ivec3_pos a0)))
  | op_eq_ivec3_ivec3 =>
      on S (dI3 S) (fun a0 => on S (dI3 S) (fun a1 => on0 S (ret S (eB S) (ModelIVec.ivec3_eq a0 a1))))
  | op_ne_ivec3_ivec3 =>
      on S (dI3 S) (fun a0 => on S (dI3 S) (fun a1 => on0 S (ret S (eB S) (ModelIVec.ivec3_ne a0 a1))))
  | ivec3__index =>
      on S (dI3 S) (fun a0 => on S (dU S) (fun a1 => on0 S (at_index S (do _ <- ModelIVec.ivec3_index b a0 a1; Ret [index a1]))))
  | ivec3__index_const =>
      on S (dI3 S) (fun a0 => on S (dU S) (fun a1 => on0 S (lift S (ret S (eI S)) (ModelIVec.ivec3_index b a0 a1))))
  | ivec3__preinc =>
      on S (dI3 S) (fun a0 => on0 S (lift S (pre S (eI3 S)) (ModelIVec.ivec3_preinc a0)))
  | ivec3__postinc =>
      on S (dI3 S) (fun a0 => on0 S (lift S (post S (eI3 S)) (ModelIVec.ivec3_postinc a0)))
  | ivec3__predec =>
      on S (dI3 S) (fun a0 => on0 S (lift S (pre S (eI3 S)) (ModelIVec.ivec3_predec a0)))
  | ivec3__postdec =>
      on S (dI3 S) (fun a0 => on0 S (lift S (post S (eI3 S)) (ModelIVec.ivec3_postdec a0)))
  | ivec3__to_bvec3 =>
      on S (dI3 S) (fun a0 => on0 S (ret S (eB3 S) (ModelIVec.ivec3_to_bvec3 a0)))
  | op_lt_ivec3_ivec3 =>
      on S (dI3 S) (fun a0 => on S (dI3 S) (fun a1 => on0 S (ret S (eB S) (ModelIVec.ivec3_lt a0 a1))))
  | op_le_ivec3_ivec3 =>
      on S (dI3 S) (fun a0 => on S (dI3 S) (fun a1 => on0 S (ret S (eB S) (ModelIVec.ivec3_le a0 a1))))
  | op_gt_ivec3_ivec3 =>
      on S (dI3 S) (fun a0 => on S (dI3 S) (fun a1 => on0 S (ret S (eB S) (ModelIVec.ivec3_gt a0 a1))))
  | op_ge_ivec3_ivec3 =>
      on S (dI3 S) (fun a0 => on S (dI3 S) (fun a1 => on0 S (ret S (eB S) (ModelIVec.ivec3_ge a0 a1))))
  | ivec4__default =>
      on0 S (ret S (eI4 S) (ModelIVec.ivec4_default))
  | ivec4__no_init_t =>
      on0 S (Ret (blank Civec4, []))
  | ivec4__int =>
      on S (dI S) (fun a0 => on0 S (ret S (eI4 S) (ModelIVec.ivec4_i a0)))
  | ivec4__int_int_int_int =>
      on S (dI S) (fun a0 => on S (dI S) (fun a1 => on S (dI S) (fun a2 => on S (dI S) (fun a3 => on0 S (ret S (eI4 S) (ModelIVec.ivec4_xyzw a0 a1 a2 a3))))))
  | ivec4__ivec3_int =>
      on S (dI3 S) (fun a0 => on S (dI S) (fun a1 => on0 S (ret S (eI4 S) (ModelIVec.ivec4_v3i a0 a1))))
  | ivec4__int_ivec3 =>
      on S (dI S) (fun a0 => on S (dI3 S) (fun a1 => on0 S (ret S (eI4 S) (ModelIVec.ivec4_iv3 a0 a1))))
  | ivec4__ivec2_ivec2 =>
      on S (dI2 S) (fun a0 => on S (dI2 S) (fun a1 => on0 S (ret S (eI4 S) (ModelIVec.ivec4_v2v2 a0 a1))))
  | ivec4__ivec2_int_int =>
      on S (dI2 S) (fun a0 => on S (dI S) (fun a1 => on S (dI S) (fun a2 => on0 S (ret S (eI4 S) (ModelIVec.ivec4_v2ii a0 a1 a2)))))
  | ivec4__int_ivec2_int =>
      on S (dI S) (fun a0 => on S (dI2 S) (fun a1 => on S (dI S) (fun a2 => on0 S (ret S (eI4 S) (ModelIVec.ivec4_iv2i a0 a1 a2)))))
  | ivec4__int_int_ivec2 =>
      on S (dI S) (fun a0 => on S (dI S) (fun a1 => on S (dI2 S) (fun a2 => on0 S (ret S (eI4 S) (ModelIVec.ivec4_iiv2 a0 a1 a2)))))
  | make_ivec4_int_ptr =>
      on S (dPI S) (fun a0 => on0 S (lift S (ret S (eI4 S)) (ModelIVec.make_ivec4 b a0)))
  | op_add_ivec4_ivec4 =>
      on S (dI4 S) (fun a0 => on S (dI4 S) (fun a1 => on0 S (lift S (ret S (eI4 S)) (ModelIVec.ivec4_add a0 a1))))
  | op_add_ivec4_int =>
      on S (dI4 S) (fun a0 => on S (dI S) (fun a1 => on0 S (lift S (ret S (eI4 S)) (ModelIVec.ivec4_add_sc a0 a1))))
  | op_add_int_ivec4 =>
      on S (dI S) (fun a0 => on S (dI4 S) (fun a1 => on0 S (lift S (ret S (eI4 S)) (ModelIVec.sc_add_ivec4 a0 a1))))
  | op_sub_ivec4_ivec4 =>
      on S (dI4 S) (fun a0 => on S (dI4 S) (fun a1 => on0 S (lift S (ret S (eI4 S)) (ModelIVec.ivec4_sub a0 a1))))
  | op_sub_ivec4_int =>
      on S (dI4 S) (fun a0 => on S (dI S) (fun a1 => on0 S (lift S (ret S (eI4 S)) (ModelIVec.ivec4_sub_sc a0 a1))))
  | op_sub_int_ivec4 =>
      on S (dI S) (fun a0 => on S (dI4 S) (fun a1 => on0 S (lift S (ret S (eI4 S)) (ModelIVec.sc_sub_ivec4 a0 a1))))
  | op_mul_ivec4_ivec4 =>
      on S (dI4 S) (fun a0 => on S (dI4 S) (fun a1 => on0 S (lift S (ret S (eI4 S)) (ModelIVec.ivec4_mul a0 a1))))
  | op_mul_ivec4_int =>
      on S (dI4 S) (fun a0 => on S (dI S) (fun a1 => on0 S (lift S (ret S (eI4 S)) (ModelIVec.ivec4_mul_sc a0 a1))))
  | op_mul_int_ivec4 =>
      on S (dI S) (fun a0 => on S (dI4 S) (fun a1 => on0 S (lift S (ret S (eI4 S)) (ModelIVec.sc_mul_ivec4 a0 a1))))
  | op_div_ivec4_ivec4 =>
      on S (dI4 S) (fun a0 => on S (dI4 S) (fun a1 => on0 S (lift S (ret S (eI4 S)) (ModelIVec.ivec4_div a0 a1))))
  | op_div_ivec4_int =>
      on S (dI4 S) (fun a0 => on S (dI S) (fun a1 => on0 S (lift S (ret S (eI4 S)) (ModelIVec.ivec4_div_sc a0 a1))))
  | op_div_int_ivec4 =>
      on S (dI S) (fun a0 => on S (dI4 S) (fun a1 => on0 S (lift S (ret S (eI4 S)) (ModelIVec.sc_div_ivec4 a0 a1))))
  | ivec4__op_add_assign_ivec4 =>
      on S (dI4 S) (fun a0 => on S (dI4 S) (fun a1 => on0 S (lift S (mutate S (eI4 S)) (ModelIVec.ivec4_add_assign (fun _ => a1) a0))))
  | ivec4__op_add_assign_int =>
      on S (dI4 S) (fun a0 => on S (dI S) (fun a1 => on0 S (lift S (mutate S (eI4 S)) (ModelIVec.ivec4_add_assign_sc (fun _ => a1) a0))))
  | ivec4__op_sub_assign_ivec4 =>
      on S (dI4 S) (fun a0 => on S (dI4 S) (fun a1 => on0 S (lift S (mutate S (eI4 S)) (ModelIVec.ivec4_sub_assign (fun _ => a1) a0))))
  | ivec4__op_sub_assign_int =>
      on S (dI4 S) (fun a0 => on S (dI S) (fun a1 => on0 S (lift S (mutate S (eI4 S)) (ModelIVec.ivec4_sub_assign_sc (fun _ => a1) a0))))
  | ivec4__op_mul_assign_ivec4 =>
      on S (dI4 S) (fun a0 => on S (dI4 S) (fun a1 => on0 S (lift S (mutate S (eI4 S)) (ModelIVec.ivec4_mul_assign (fun _ => a1) a0))))
  | ivec4__op_mul_assign_int =>
      on S (dI4 S) (fun a0 => on S (dI S) (fun a1 => on0 S (lift S (mutate S (eI4 S)) (ModelIVec.ivec4_mul_assign_sc (fun _ => a1) a0))))
  | ivec4__op_div_assign_ivec4 =>
      on S (dI4 S) (fun a0 => on S (dI4 S) (fun a1 => on0 S (lift S (mutate S (eI4 S)) (ModelIVec.ivec4_div_assign (fun _ => a1) a0))))
  | ivec4__op_div_assign_int =>
      on S (dI4 S) (fun a0 => on S (dI S) (fun a1 => on0 S (lift S (mutate S (eI4 S)) (ModelIVec.ivec4_div_assign_sc (fun _ => a1) a0))))
  | op_sub_ivec4 =>
      on S (dI4 S) (fun a0 => on0 S (lift S (ret S (eI4 S)) (ModelIVec.ivec4_neg a0)))
  | op_add_ivec4 =>
      on S (dI4 S) (fun a0 => on0 S (ret S (eI4 S) (ModelIVec.ivec4_pos a0)))
  | ivec4__preinc =>
      on S (dI4 S) (fun a0 => on0 S (lift S (pre S (eI4 S)) (ModelIVec.ivec4_preinc a0)))
  | ivec4__postinc =>
      on S (dI4 S) (fun a0 => on0 S (lift S (post S (eI4 S)) (ModelIVec.ivec4_postinc a0)))
  | ivec4__predec =>
      on S (dI4 S) (fun a0 => on0 S (lift S (pre S (eI4 S)) (ModelIVec.ivec4_predec a0)))
  | ivec4__postdec =>
      on S (dI4 S) (fun a0 => on0 S (lift S (post S (eI4 S)) (ModelIVec.ivec4_postdec a0)))
  | op_eq_ivec4_ivec4 =>
      on S (dI4 S) (fun a0 => on S (dI4 S) (fun a1 => on0 S (ret S (eB S) (ModelIVec.ivec4_eq a0 a1))))
  | op_ne_ivec4_ivec4 =>
      on S (dI4 S) (fun a0 => on S (dI4 S) (fun a1 => on0 S (ret S (eB S) (ModelIVec.ivec4_ne a0 a1))))
  | op_lt_ivec4_ivec4 =>
      on S (dI4 S) (fun a0 => on S (dI4 S) (fun a1 => on0 S (ret S (eB S) (ModelIVec.ivec4_lt a0 a1))))
  | op_le_ivec4_ivec4 =>
      on S (dI4 S) (fun a0 => on S (dI4 S) (fun a1 => on0 S (ret S (eB S) (ModelIVec.ivec4_le a0 a1))))
  | op_gt_ivec4_ivec4 =>
      on S (dI4 S) (fun a0 => on S (dI4 S) (fun a1 => on0 S (ret S (eB S) (ModelIVec.ivec4_gt a0 a1))))
  | op_ge_ivec4_ivec4 =>
      on S (dI4 S) (fun a0 => on S (dI4 S) (fun a1 => on0 S (ret S (eB S) (ModelIVec.ivec4_ge a0 a1))))
  | ivec4__index =>
      on S (dI4 S) (fun a0 => on S (dU S) (fun a1 => on0 S (at_index S (do _ <- ModelIVec.ivec4_index b a0 a1; Ret [index a1]))))
  | ivec4__index_const =>
      on S (dI4 S) (fun a0 => on S (dU S) (fun a1 => on0 S (lift S (ret S (eI S)) (ModelIVec.ivec4_index b a0 a1))))
  | ivec4__to_bvec4 =>
      on S (dI4 S) (fun a0 => on0 S (ret S (eB4 S) (ModelIVec.ivec4_to_bvec4 a0)))
  | bvec2__default =>
      on0 S (ret S (eB2 S) (ModelBVec.bvec2_default))
  | bvec2__bool =>
      on S (dB S) (fun a0 => on0 S (ret S (eB2 S) (ModelBVec.bvec2_b a0)))
  | bvec2__bool_bool =>
      on S (dB S) (fun a0 => on S (dB S) (fun a1 => on0 S (ret S (eB2 S) (ModelBVec.bvec2_xy a0 a1))))
  | op_land_bvec2_bvec2 =>
      on S (dB2 S) (fun a0 => on S (dB2 S) (fun a1 => on0 S (ret S (eB2 S) (ModelBVec.bvec2_and a0 a1))))
  | op_land_bvec2_bool =>
      on S (dB2 S) (fun a0 => on S (dB S) (fun a1 => on0 S (ret S (eB2 S) (ModelBVec.bvec2_and_sc a0 a1))))
  | op_land_bool_bvec2 =>
      on S (dB S) (fun a0 => on S (dB2 S) (fun a1 => on0 S (ret S (eB2 S) (ModelBVec.sc_and_bvec2 a0 a1))))
  | op_lor_bvec2_bvec2 =>
      on S (dB2 S) (fun a0 => on S (dB2 S) (fun a1 => on0 S (ret S (eB2 S) (ModelBVec.bvec2_or a0 a1))))
  | op_lor_bvec2_bool =>
      on S (dB2 S) (fun a0 => on S (dB S) (fun a1 => on0 S (ret S (eB2 S) (ModelBVec.bvec2_or_sc a0 a1))))
  | op_lor_bool_bvec2 =>
      on S (dB S) (fun a0 => on S (dB2 S) (fun a1 => on0 S (ret S (eB2 S) (ModelBVec.sc_or_bvec2 a0 a1))))
  | op_xor_bvec2_bvec2 =>
      on S (dB2 S) (fun a0 => on S (dB2 S) (fun a1 => on0 S (ret S (eB2 S) (ModelBVec.bvec2_xor a0 a1))))
  | op_xor_bvec2_bool =>
      on S (dB2 S) (fun a0 => on S (dB S) (fun a1 => on0 S (ret S (eB2 S) (ModelBVec.bvec2_xor_sc a0 a1))))
  | op_xor_bool_bvec2 =>
      on S (dB S) (fun a0 => on S (dB2 S) (fun a1 => on0 S (ret S (eB2 S) (ModelBVec.sc_xor_bvec2 a0 a1))))
  | op_not_bvec2 =>
      on S (dB2 S) (fun a0 => on0 S (ret S (eB2 S) (ModelBVec.bvec2_not a0)))
  | bvec2__op_and_assign_bool =>
      on S (dB2 S) (fun a0 => on S (dB S) (fun a1 => on0 S (mutate S (eB2 S) (ModelBVec.bvec2_and_assign_sc (fun _ => a1) a0))))
  | bvec2__op_or_assign_bool =>
      on S (dB2 S) (fun a0 => on S (dB S) (fun a1 => on0 S (mutate S (eB2 S) (ModelBVec.bvec2_or_assign_sc (fun _ => a1) a0))))
  | bvec2__op_xor_assign_bool =>
      on S (dB2 S) (fun a0 => on S (dB S) (fun a1 => on0 S (mutate S (eB2 S) (ModelBVec.bvec2_xor_assign_sc (fun _ => a1) a0))))
  | bvec2__op_and_assign_bvec2 =>
      on S (dB2 S) (fun a0 => on S (dB2 S) (fun a1 => on0 S (mutate S (eB2 S) (ModelBVec.bvec2_and_assign (fun _ => a1) a0))))
  | bvec2__op_or_assign_bvec2 =>
      on S (dB2 S) (fun a0 => on S (dB2 S) (fun a1 => on0 S (mutate S (eB2 S) (ModelBVec.bvec2_or_assign (fun _ => a1) a0))))
  | bvec2__op_xor_assign_bvec2 =>
      on S (dB2 S) (fun a0 => on S (dB2 S) (fun a1 => on0 S (mutate S (eB2 S) (ModelBVec.bvec2_xor_assign (fun _ => a1) a0))))
  | op_eq_bvec2_bvec2 =>
      on S (dB2 S) (fun a0 => on S (dB2 S) (fun a1 => on0 S (ret S (eB S) (ModelBVec.bvec2_eq a0 a1))))
  | op_ne_bvec2_bvec2 =>
      on S (dB2 S) (fun a0 => on S (dB2 S) (fun a1 => on0 S (ret S (eB S) (ModelBVec.bvec2_ne a0 a1))))
  | bvec2__index =>
      on S (dB2 S) (fun a0 => on S (dU S) (fun a1 => on0 S (at_index S (do _ <- ModelBVec.bvec2_index b a0 a1; Ret [index (N.min a1 1)]))))
  | bvec2__index_const =>
      on S (dB2 S) (fun a0 => on S (dU S) (fun a1 => on0 S (lift S (ret S (eB S)) (ModelBVec.bvec2_index b a0 a1))))
  | make_bvec2_bool_ptr =>
      on S (dPB S) (fun a0 => on0 S (lift S (ret S (eB2 S)) (ModelBVec.make_bvec2 b a0)))
  | bvec3__default =>
      on0 S (ret S (eB3 S) (ModelBVec.bvec3_default))
  | bvec3__bool =>
      on S (dB S) (fun a0 => on0 S (ret S (eB3 S) (ModelBVec.bvec3_b a0)))
  | bvec3__bool_bool_bool =>
      on S (dB S) (fun a0 => on S (dB S) (fun a1 => on S (dB S) (fun a2 => on0 S (ret S (eB3 S) (ModelBVec.bvec3_xyz a0 a1 a2)))))
  | bvec3__bvec2_bool =>
      on S (dB2 S) (fun a0 => on S (dB S) (fun a1 => on0 S (ret S (eB3 S) (ModelBVec.bvec3_v2b a0 a1))))
  | bvec3__bool_bvec2 =>
      on S (dB S) (fun a0 => on S (dB2 S) (fun a1 => on0 S (ret S (eB3 S) (ModelBVec.bvec3_bv2 a0 a1))))
  | op_land_bvec3_bvec3 =>
      on S (dB3 S) (fun a0 => on S (dB3 S) (fun a1 => on0 S (ret S (eB3 S) (ModelBVec.bvec3_and a0 a1))))
  | op_land_bvec3_bool =>
      on S (dB3 S) (fun a0 => on S (dB S) (fun a1 => on0 S (ret S (eB3 S) (ModelBVec.bvec3_and_sc a0 a1))))
  | op_land_bool_bvec3 =>
      on S (dB S) (fun a0 => on S (dB3 S) (fun a1 => on0 S (ret S (eB3 S) (ModelBVec.sc_and_bvec3 a0 a1))))
  | op_lor_bvec3_bvec3 =>
      on S (dB3 S) (fun a0 => on S (dB3 S) (fun a1 => on0 S (ret S (eB3 S) (ModelBVec.bvec3_or a0 a1))))
  | op_lor_bvec3_bool =>
      on S (dB3 S) (fun a0 => on S (dB S) (fun a1 => on0 S (ret S (eB3 S) (ModelBVec.bvec3_or_sc a0 a1))))
  | op_lor_bool_bvec3 =>
      on S (dB S) (fun a0 => on S (dB3 S) (fun a1 => on0 S (ret S (eB3 S) (ModelBVec.sc_or_bvec3 a0 a1))))
  | op_xor_bvec3_bvec3 =>
      on S (dB3 S) (fun a0 => on S (dB3 S) (fun a1 => on0 S (ret S (eB3 S) (ModelBVec.bvec3_xor a0 a1))))
  | op_xor_bvec3_bool =>
      on S (dB3 S) (fun a0 => on S (dB S) (fun a1 => on0 S (ret S (eB3 S) (ModelBVec.bvec3_xor_sc a0 a1))))
  | op_xor_bool_bvec3 =>
      on S (dB S) (fun a0 => on S (dB3 S) (fun a1 => on0 S (ret S (eB3 S) (ModelBVec.sc_xor_bvec3 a0 a1))))
  | op_not_bvec3 =>
      on S (dB3 S) (fun a0 => on0 S (ret S (eB3 S) (ModelBVec.bvec3_not a0)))
  | bvec3__op_and_assign_bool =>
      on S (dB3 S) (fun a0 => on S (dB S) (fun a1 => on0 S (mutate S (eB3 S) (ModelBVec.bvec3_and_assign_sc (fun _ => a1) a0))))
  | bvec3__op_or_assign_bool =>
      on S (dB3 S) (fun a0 => on S (dB S) (fun a1 => on0 S (mutate S (eB3 S) (ModelBVec.bvec3_or_assign_sc (fun _ => a1) a0))))
  | bvec3__op_xor_assign_bool =>
      on S (dB3 S) (fun a0 => on S (dB S) (fun a1 => on0 S (mutate S (eB3 S) (ModelBVec.bvec3_xor_assign_sc (fun _ => a1) a0))))
  | bvec3__op_and_assign_bvec3 =>
      on S (dB3 S) (fun a0 => on S (dB3 S) (fun a1 => on0 S (mutate S (eB3 S) (ModelBVec.bvec3_and_assign (fun _ => a1) a0))))
  | bvec3__op_or_assign_bvec3 =>
      on S (dB3 S) (fun a0 => on S (dB3 S) (fun a1 => on0 S (mutate S (eB3 S) (ModelBVec.bvec3_or_assign (fun _ => a1) a0))))
  | bvec3__op_xor_assign_bvec3 =>
      on S (dB3 S) (fun a0 => on S (dB3 S) (fun a1 => on0 S (mutate S (eB3 S) (ModelBVec.bvec3_xor_assign (fun _ => a1) a0))))
  | op_eq_bvec3_bvec3 =>
      on S (dB3 S) (fun a0 => on S (dB3 S) (fun a1 => on0 S (ret S (eB S) (ModelBVec.bvec3_eq a0 a1))))
  | op_ne_bvec3_bvec3 =>
      on S (dB3 S) (fun a0 => on S (dB3 S) (fun a1 => on0 S (ret S (eB S) (ModelBVec.bvec3_ne a0 a1))))
  | bvec3__index =>
      on S (dB3 S) (fun a0 => on S (dU S) (fun a1 => on0 S (at_index S (do _ <- ModelBVec.bvec3_index b a0 a1; Ret [index (N.min a1 2)]))))
  | bvec3__index_const =>
      on S (dB3 S) (fun a0 => on S (dU S) (fun a1 => on0 S (lift S (ret S (eB S)) (ModelBVec.bvec3_index b a0 a1))))
  | make_bvec3_bool_ptr =>
      on S (dPB S) (fun a0 => on0 S (lift S (ret S (eB3 S)) (ModelBVec.make_bvec3 b a0)))
  | bvec4__default =>
      on0 S (ret S (eB4 S) (ModelBVec.bvec4_default))
  | bvec4__bool =>
      on S (dB S) (fun a0 => on0 S (ret S (eB4 S) (ModelBVec.bvec4_b a0)))
  | bvec4__bool_bool_bool_bool =>
      on S (dB S) (fun a0 => on S (dB S) (fun a1 => on S (dB S) (fun a2 => on S (dB S) (fun a3 => on0 S (ret S (eB4 S) (ModelBVec.bvec4_xyzw a0 a1 a2 a3))))))
  | bvec4__bvec3_bool =>
      on S (dB3 S) (fun a0 => on S (dB S) (fun a1 => on0 S (ret S (eB4 S) (ModelBVec.bvec4_v3b a0 a1))))
  | bvec4__bool_bvec3 =>
      on S (dB S) (fun a0 => on S (dB3 S) (fun a1 => on0 S (ret S (eB4 S) (ModelBVec.bvec4_bv3 a0 a1))))
  | bvec4__bvec2_bvec2 =>
      on S (dB2 S) (fun a0 => on S (dB2 S) (fun a1 => on0 S (ret S (eB4 S) (ModelBVec.bvec4_v2v2 a0 a1))))
  | bvec4__bvec2_bool_bool =>
      on S (dB2 S) (fun a0 => on S (dB S) (fun a1 => on S (dB S) (fun a2 => on0 S (ret S (eB4 S) (ModelBVec.bvec4_v2bb a0 a1 a2)))))
  | bvec4__bool_bvec2_bool =>
      on S (dB S) (fun a0 => on S (dB2 S) (fun a1 => on S (dB S) (fun a2 => on0 S (ret S (eB4 S) (ModelBVec.bvec4_bv2b a0 a1 a2)))))
  | bvec4__bool_bool_bvec2 =>
      on S (dB S) (fun a0 => on S (dB S) (fun a1 => on S (dB2 S) (fun a2 => on0 S (ret S (eB4 S) (ModelBVec.bvec4_bbv2 a0 a1 a2)))))
  | op_land_bvec4_bvec4 =>
      on S (dB4 S) (fun a0 => on S (dB4 S) (fun a1 => on0 S (ret S (eB4 S) (ModelBVec.bvec4_and a0 a1))))
  | op_land_bvec4_bool =>
      on S (dB4 S) (fun a0 => on S (dB S) (fun a1 => on0 S (ret S (eB4 S) (ModelBVec.bvec4_and_sc a0 a1))))
  | op_land_bool_bvec4 =>
      on S (dB S) (fun a0 => on S (dB4 S) (fun a1 => on0 S (ret S (eB4 S) (ModelBVec.sc_and_bvec4 a0 a1))))
  | op_lor_bvec4_bvec4 =>
      on S (dB4 S) (fun a0 => on S (dB4 S) (fun a1 => on0 S (ret S (eB4 S) (ModelBVec.bvec4_or a0 a1))))
  | op_lor_bvec4_bool =>
      on S (dB4 S) (fun a0 => on S (dB S) (fun a1 => on0 S (ret S (eB4 S) (ModelBVec.bvec4_or_sc a0 a1))))
  | op_lor_bool_bvec4 =>
      on S (dB S) (fun a0 => on S (dB4 S) (fun a1 => on0 S (ret S (eB4 S) (ModelBVec.sc_or_bvec4 a0 a1))))
  | op_xor_bvec4_bvec4 =>
      on S (dB4 S) (fun a0 => on S (dB4 S) (fun a1 => on0 S (ret S (eB4 S) (ModelBVec.bvec4_xor a0 a1))))
  | op_xor_bvec4_bool =>
      on S (dB4 S) (fun a0 => on S (dB S) (fun a1 => on0 S (ret S (eB4 S) (ModelBVec.bvec4_xor_sc a0 a1))))
  | op_xor_bool_bvec4 =>
      on S (dB S) (fun a0 => on S (dB4 S) (fun a1 => on0 S (ret S (eB4 S) (ModelBVec.sc_xor_bvec4 a0 a1))))
  | op_not_bvec4 =>
      on S (dB4 S) (fun a0 => on0 S (ret S (eB4 S) (ModelBVec.bvec4_not a0)))
  | op_eq_bvec4_bvec4 =>
      on S (dB4 S) (fun a0 => on S (dB4 S) (fun a1 => on0 S (ret S (eB S) (ModelBVec.bvec4_eq a0 a1))))
  | op_ne_bvec4_bvec4 =>
      on S (dB4 S) (fun a0 => on S (dB4 S) (fun a1 => on0 S (ret S (eB S) (ModelBVec.bvec4_ne a0 a1))))
  | bvec4__op_and_assign_bool =>
      on S (dB4 S) (fun a0 => on S (dB S) (fun a1 => on0 S (mutate S (eB4 S) (ModelBVec.bvec4_and_assign_sc (fun _ => a1) a0))))
  | bvec4__op_or_assign_bool =>
      on S (dB4 S) (fun a0 => on S (dB S) (fun a1 => on0 S (mutate S (eB4 S) (ModelBVec.bvec4_or_assign_sc (fun _ => a1) a0))))
  | bvec4__op_xor_assign_bool =>
      on S (dB4 S) (fun a0 => on S (dB S) (fun a1 => on0 S (mutate S (eB4 S) (ModelBVec.bvec4_xor_assign_sc (fun _ => a1) a0))))
  | bvec4__op_and_assign_bvec4 =>
      on S (dB4 S) (fun a0 => on S (dB4 S) (fun a1 => on0 S (mutate S (eB4 S) (ModelBVec.bvec4_and_assign (fun _ => a1) a0))))
  | bvec4__op_or_assign_bvec4 =>
      on S (dB4 S) (fun a0 => on S (dB4 S) (fun a1 => on0 S (mutate S (eB4 S) (ModelBVec.bvec4_or_assign (fun _ => a1) a0))))
  | bvec4__op_xor_assign_bvec4 =>
      on S (dB4 S) (fun a0 => on S (dB4 S) (fun a1 => on0 S (mutate S (eB4 S) (ModelBVec.bvec4_xor_assign (fun _ => a1) a0))))
  | bvec4__index =>
      on S (dB4 S) (fun a0 => on S (dU S) (fun a1 => on0 S (at_index S (do _ <- ModelBVec.bvec4_index b a0 a1; Ret [index (N.min a1 3)]))))
  | bvec4__index_const =>
      on S (dB4 S) (fun a0 => on S (dU S) (fun a1 => on0 S (lift S (ret S (eB S)) (ModelBVec.bvec4_index b a0 a1))))
  | make_bvec4_bool_ptr =>
      on S (dPB S) (fun a0 => on0 S (lift S (ret S (eB4 S)) (ModelBVec.make_bvec4 b a0)))
  | mat2__default =>
      on0 S (ret S (eM2 S) (ModelMat.mat2_default S))
  | mat2__no_init_t =>
      on0 S (Ret (Obj Cmat2 [eV2 S (ModelVec.vec2_default S); eV2 S (ModelVec.vec2_default S)], []))
  | mat2__float =>
      on S (dF S) (fun a0 => on0 S (ret S (eM2 S) (ModelMat.mat2_f S a0)))
  | mat2__float_float_float_float =>
      on S (dF S) (fun a0 => on S (dF S) (fun a1 => on S (dF S) (fun a2 => on S (dF S) (fun a3 => on0 S (ret S (eM2 S) (ModelMat.mat2_el S a0 a1 a2 a3))))))
  | mat2__vec2_vec2 =>
      on S (dV2 S) (fun a0 => on S (dV2 S) (fun a1 => on0 S (ret S (eM2 S) (ModelMat.mat2_cols S a0 a1))))
  | mat2__index =>
      on S (dM2 S) (fun a0 => on S (dU S) (fun a1 => on0 S (at_index S (do _ <- ModelMat.mat2_index S b a0 a1; Ret [index a1]))))
  | mat2__index_const =>
      on S (dM2 S) (fun a0 => on S (dU S) (fun a1 => on0 S (lift S (ret S (eV2 S)) (ModelMat.mat2_index S b a0 a1))))
  | op_add_mat2_mat2 =>
      on S (dM2 S) (fun a0 => on S (dM2 S) (fun a1 => on0 S (ret S (eM2 S) (ModelMat.mat2_add S a0 a1))))
  | op_sub_mat2_mat2 =>
      on S (dM2 S) (fun a0 => on S (dM2 S) (fun a1 => on0 S (ret S (eM2 S) (ModelMat.mat2_sub S a0 a1))))
  | op_sub_mat2 =>
      on S (dM2 S) (fun a0 => on0 S (ret S (eM2 S) (ModelMat.mat2_neg S a0)))
  | op_add_mat2 =>
      on S (dM2 S) (fun a0 => on0 S (ret S (eM2 S) (ModelMat.mat2_pos S a0)))
  | op_mul_mat2_mat2 =>
      on S (dM2 S) (fun a0 => on S (dM2 S) (fun a1 => on0 S (ret S (eM2 S) (ModelMat.mat2_mul S a0 a1))))
  | op_div_mat2_mat2 =>
      on S (dM2 S) (fun a0 => on S (dM2 S) (fun a1 => on0 S (ret S (eM2 S) (ModelMatrix.mat2_div S a0 a1))))
  | op_mul_mat2_float =>
      on S (dM2 S) (fun a0 => on S (dF S) (fun a1 => on0 S (ret S (eM2 S) (ModelMat.mat2_mul_sc S a0 a1))))
  | op_div_mat2_float =>
      on S (dM2 S) (fun a0 => on S (dF S) (fun a1 => on0 S (ret S (eM2 S) (ModelMat.mat2_div_sc S a0 a1))))
  | op_mul_float_mat2 =>
      on S (dF S) (fun a0 => on S (dM2 S) (fun a1 => on0 S (ret S (eM2 S) (ModelMat.sc_mul_mat2 S a0 a1))))
  | op_div_float_mat2 =>
      on S (dF S) (fun a0 => on S (dM2 S) (fun a1 => on0 S (ret S (eM2 S) (ModelMat.sc_div_mat2 S a0 a1))))
  | op_mul_mat2_vec2 =>
      on S (dM2 S) (fun a0 => on S (dV2 S) (fun a1 => on0 S (ret S (eV2 S) (ModelMat.mat2_mul_vec S a0 a1))))
  | op_mul_vec2_mat2 =>
      on S (dV2 S) (fun a0 => on S (dM2 S) (fun a1 => on0 S (ret S (eV2 S) (ModelMat.vec_mul_mat2 S a0 a1))))
  | op_div_mat2_vec2 =>
      on S (dM2 S) (fun a0 => on S (dV2 S) (fun a1 => on0 S (ret S (eV2 S) (ModelMatrix.mat2_div_vec S a0 a1))))
  | op_div_vec2_mat2 =>
      on S (dV2 S) (fun a0 => on S (dM2 S) (fun a1 => on0 S (ret S (eV2 S) (ModelMatrix.vec_div_mat2 S a0 a1))))
  | mat2__op_add_assign_mat2 =>
      on S (dM2 S) (fun a0 => on S (dM2 S) (fun a1 => on0 S (mutate S (eM2 S) (ModelMat.mat2_add_assign S (fun _ => a1) a0))))
  | mat2__op_sub_assign_mat2 =>
      on S (dM2 S) (fun a0 => on S (dM2 S) (fun a1 => on0 S (mutate S (eM2 S) (ModelMat.mat2_sub_assign S (fun _ => a1) a0))))
  | mat2__op_mul_assign_mat2 =>
      on S (dM2 S) (fun a0 => on S (dM2 S) (fun a1 => on0 S (mutate S (eM2 S) (ModelMat.mat2_mul_assign S (fun _ => a1) a0))))
  | mat2__op_div_assign_mat2 =>
      on S (dM2 S) (fun a0 => on S (dM2 S) (fun a1 => on0 S (mutate S (eM2 S) (ModelMatrix.mat2_div_assign S (fun _ => a1) a0))))
  | op_eq_mat2_mat2 =>
      on S (dM2 S) (fun a0 => on S (dM2 S) (fun a1 => on0 S (ret S (eB S) (ModelMat.mat2_eq S a0 a1))))
  | op_ne_mat2_mat2 =>
      on S (dM2 S) (fun a0 => on S (dM2 S) (fun a1 => on0 S (ret S (eB S) (ModelMat.mat2_ne S a0 a1))))
  | make_mat2_float_ptr =>
      on S (dPF S) (fun a0 => on0 S (lift S (ret S (eM2 S)) (ModelMat.make_mat2 S b a0)))
  | mat3__default =>
      on0 S (ret S (eM3 S) (ModelMat.mat3_default S))
  | mat3__no_init_t =>
      on0 S (Ret (Obj Cmat3 [eV3 S (ModelVec.vec3_default S); eV3 S (ModelVec.vec3_default S); eV3 S (ModelVec.vec3_default S)], []))
  | mat3__float =>
      on S (dF S) (fun a0 => on0 S (ret S (eM3 S) (ModelMat.mat3_f S a0)))
  | mat3__mat2 =>
      on S (dM2 S) (fun a0 => on0 S (lift S (ret S (eM3 S)) (ModelMat.mat3_of_mat2 S b a0)))
  | mat3__to_mat2 =>
      on S (dM3 S) (fun a0 => on0 S (ret S (eM2 S) (ModelMat.mat2_of_mat3 S a0)))
  | mat3__vec3_vec3_vec3 =>
      on S (dV3 S) (fun a0 => on S (dV3 S) (fun a1 => on S (dV3 S) (fun a2 => on0 S (ret S (eM3 S) (ModelMat.mat3_cols S a0 a1 a2)))))
  | mat3__float_float_float_float_float_float_float_float_float =>
      on S (dF S) (fun a0 => on S (dF S) (fun a1 => on S (dF S) (fun a2 => on S (dF S) (fun a3 => on S (dF S) (fun a4 => on S (dF S) (fun a5 => on S (dF S) (fun a6 => on S (dF S) (fun a7 => on S (dF S) (fun a8 => on0 S (ret S (eM3 S) (ModelMat.mat3_el S a0 a1 a2 a3 a4 a5 a6 a7 a8)))))))))))
  | op_add_mat3_mat3 =>
      on S (dM3 S) (fun a0 => on S (dM3 S) (fun a1 => on0 S (ret S (eM3 S) (ModelMat.mat3_add S a0 a1))))
  | op_sub_mat3_mat3 =>
      on S (dM3 S) (fun a0 => on S (dM3 S) (fun a1 => on0 S (ret S (eM3 S) (ModelMat.mat3_sub S a0 a1))))
  | op_sub_mat3 =>
      on S (dM3 S) (fun a0 => on0 S (ret S (eM3 S) (ModelMat.mat3_neg S a0)))
  | op_add_mat3 =>
      on S (dM3 S) (fun a0 => on0 S (ret S (eM3 S) (ModelMat.mat3_pos S a0)))
  | op_mul_mat3_mat3 =>
      on S (dM3 S) (fun a0 => on S (dM3 S) (fun a1 => on0 S (ret S (eM3 S) (ModelMat.mat3_mul S a0 a1))))
  | op_div_mat3_mat3 =>
      on S (dM3 S) (fun a0 => on S (dM3 S) (fun a1 => on0 S (ret S (eM3 S) (ModelMatrix.mat3_div S a0 a1))))
  | op_mul_mat3_float =>
      on S (dM3 S) (fun a0 => on S (dF S) (fun a1 => on0 S (ret S (eM3 S) (ModelMat.mat3_mul_sc S a0 a1))))
  | op_div_mat3_float =>
      on S (dM3 S) (fun a0 => on S (dF S) (fun a1 => on0 S (ret S (eM3 S) (ModelMat.mat3_div_sc S a0 a1))))
  | op_mul_float_mat3 =>
      on S (dF S) (fun a0 => on S (dM3 S) (fun a1 => on0 S (ret S (eM3 S) (ModelMat.sc_mul_mat3 S a0 a1))))
  | op_div_float_mat3 =>
      on S (dF S) (fun a0 => on S (dM3 S) (fun a1 => on0 S (ret S (eM3 S) (ModelMat.sc_div_mat3 S a0 a1))))
  | mat3__index =>
      on S (dM3 S) (fun a0 => on S (dU S) (fun a1 => on0 S (at_index S (do _ <- ModelMat.mat3_index S b a0 a1; Ret [index a1]))))
  | mat3__index_const =>
      on S (dM3 S) (fun a0 => on S (dU S) (fun a1 => on0 S (lift S (ret S (eV3 S)) (ModelMat.mat3_index S b a0 a1))))
  | mat3__op_add_assign_mat3 =>
      on S (dM3 S) (fun a0 => on S (dM3 S) (fun a1 => on0 S (mutate S (eM3 S) (ModelMat.mat3_add_assign S (fun _ => a1) a0))))
  | mat3__op_sub_assign_mat3 =>
      on S (dM3 S) (fun a0 => on S (dM3 S) (fun a1 => on0 S (mutate S (eM3 S) (ModelMat.mat3_sub_assign S (fun _ => a1) a0))))
  | mat3__op_mul_assign_mat3 =>
      on S (dM3 S) (fun a0 => on S (dM3 S) (fun a1 => on0 S (mutate S (eM3 S) (ModelMat.mat3_mul_assign S (fun _ => a1) a0))))
  | mat3__op_div_assign_mat3 =>
      on S (dM3 S) (fun a0 => on S (dM3 S) (fun a1 => on0 S (mutate S (eM3 S) (ModelMatrix.mat3_div_assign S (fun _ => a1) a0))))
  | op_mul_mat3_vec3 =>
      on S (dM3 S) (fun a0 => on S (dV3 S) (fun a1 => on0 S (ret S (eV3 S) (ModelMat.mat3_mul_vec S a0 a1))))
  | op_mul_vec3_mat3 =>
      on S (dV3 S) (fun a0 => on S (dM3 S) (fun a1 => on0 S (ret S (eV3 S) (ModelMat.vec_mul_mat3 S a0 a1))))
  | op_div_mat3_vec3 =>
      on S (dM3 S) (fun a0 => on S (dV3 S) (fun a1 => on0 S (ret S (eV3 S) (ModelMatrix.mat3_div_vec S a0 a1))))
  | op_div_vec3_mat3 =>
      on S (dV3 S) (fun a0 => on S (dM3 S) (fun a1 => on0 S (ret S (eV3 S) (ModelMatrix.vec_div_mat3 S a0 a1))))
  | op_eq_mat3_mat3 =>
      on S (dM3 S) (fun a0 => on S (dM3 S) (fun a1 => on0 S (ret S (eB S) (ModelMat.mat3_eq S a0 a1))))
  | op_ne_mat3_mat3 =>
      on S (dM3 S) (fun a0 => on S (dM3 S) (fun a1 => on0 S (ret S (eB S) (ModelMat.mat3_ne S a0 a1))))
  | make_mat3_float_ptr =>
      on S (dPF S) (fun a0 => on0 S (lift S (ret S (eM3 S)) (ModelMat.make_mat3 S b a0)))
  | mat4__default =>
      on0 S (ret S (eM4 S) (ModelMat.mat4_default S))
  | mat4__no_init_t =>
      on0 S (Ret (Obj Cmat4 [eV4 S (ModelVec.vec4_default S); eV4 S (ModelVec.vec4_default S); eV4 S (ModelVec.vec4_default S); eV4 S (ModelVec.vec4_default S)], []))
  | mat4__float =>
      on S (dF S) (fun a0 => on0 S (ret S (eM4 S) (ModelMat.mat4_f S a0)))
  | mat4__vec4_vec4_vec4_vec4 =>
      on S (dV4 S) (fun a0 => on S (dV4 S) (fun a1 => on S (dV4 S) (fun a2 => on S (dV4 S) (fun a3 => on0 S (ret S (eM4 S) (ModelMat.mat4_cols S a0 a1 a2 a3))))))
  | mat4__float_float_float_float_float_float_float_float_float_float_float_float_float_float_float_float =>
      on S (dF S) (fun a0 => on S (dF S) (fun a1 => on S (dF S) (fun a2 => on S (dF S) (fun a3 => on S (dF S) (fun a4 => on S (dF S) (fun a5 => on S (dF S) (fun a6 => on S (dF S) (fun a7 => on S (dF S) (fun a8 => on S (dF S) (fun a9 => on S (dF S) (fun a10 => on S (dF S) (fun a11 => on S (dF S) (fun a12 => on S (dF S) (fun a13 => on S (dF S) (fun a14 => on S (dF S) (fun a15 => on0 S (ret S (eM4 S) (ModelMat.mat4_el S a0 a1 a2 a3 a4 a5 a6 a7 a8 a9 a10 a11 a12 a13 a14 a15))))))))))))))))))
  | mat4__mat3 =>
      on S (dM3 S) (fun a0 => on0 S (ret S (eM4 S) (ModelMat.mat4_of_mat3 S a0)))
  | mat4__to_mat3 =>
      on S (dM4 S) (fun a0 => on0 S (ret S (eM3 S) (ModelMat.mat3_of_mat4 S a0)))
  | op_add_mat4_mat4 =>
      on S (dM4 S) (fun a0 => on S (dM4 S) (fun a1 => on0 S (ret S (eM4 S) (ModelMat.mat4_add S a0 a1))))
  | op_sub_mat4_mat4 =>
      on S (dM4 S) (fun a0 => on S (dM4 S) (fun a1 => on0 S (ret S (eM4 S) (ModelMat.mat4_sub S a0 a1))))
  | op_sub_mat4 =>
      on S (dM4 S) (fun a0 => on0 S (ret S (eM4 S) (ModelMat.mat4_neg S a0)))
  | op_add_mat4 =>
      on S (dM4 S) (fun a0 => on0 S (ret S (eM4 S) (ModelMat.mat4_pos S a0)))
  | op_mul_mat4_mat4 =>
      on S (dM4 S) (fun a0 => on S (dM4 S) (fun a1 => on0 S (ret S (eM4 S) (ModelMat.mat4_mul S a0 a1))))
  | op_div_mat4_mat4 =>
      on S (dM4 S) (fun a0 => on S (dM4 S) (fun a1 => on0 S (ret S (eM4 S) (ModelMatrix.mat4_div S a0 a1))))
  | op_mul_mat4_float =>
      on S (dM4 S) (fun a0 => on S (dF S) (fun a1 => on0 S (ret S (eM4 S) (ModelMat.mat4_mul_sc S a0 a1))))
  | op_div_mat4_float =>
      on S (dM4 S) (fun a0 => on S (dF S) (fun a1 => on0 S (ret S (eM4 S) (ModelMat.mat4_div_sc S a0 a1))))
  | op_mul_float_mat4 =>
      on S (dF S) (fun a0 => on S (dM4 S) (fun a1 => on0 S (ret S (eM4 S) (ModelMat.sc_mul_mat4 S a0 a1))))
  | op_div_float_mat4 =>
      on S (dF S) (fun a0 => on S (dM4 S) (fun a1 => on0 S (ret S (eM4 S) (ModelMat.sc_div_mat4 S a0 a1))))
  | mat4__op_add_assign_mat4 =>
      on S (dM4 S) (fun a0 => on S (dM4 S) (fun a1 => on0 S (mutate S (eM4 S) (ModelMat.mat4_add_assign S (fun _ => a1) a0))))
  | mat4__op_sub_assign_mat4 =>
      on S (dM4 S) (fun a0 => on S (dM4 S) (fun a1 => on0 S (mutate S (eM4 S) (ModelMat.mat4_sub_assign S (fun _ => a1) a0))))
  | mat4__op_mul_assign_mat4 =>
      on S (dM4 S) (fun a0 => on S (dM4 S) (fun a1 => on0 S (mutate S (eM4 S) (ModelMat.mat4_mul_assign S (fun _ => a1) a0))))
  | mat4__op_div_assign_mat4 =>
      on S (dM4 S) (fun a0 => on S (dM4 S) (fun a1 => on0 S (mutate S (eM4 S) (ModelMatrix.mat4_div_assign S (fun _ => a1) a0))))
  | mat4__index =>
      on S (dM4 S) (fun a0 => on S (dU S) (fun a1 => on0 S (at_index S (do _ <- ModelMat.mat4_index S b a0 a1; Ret [index a1]))))
  | mat4__index_const =>
      on S (dM4 S) (fun a0 => on S (dU S) (fun a1 => on0 S (lift S (ret S (eV4 S)) (ModelMat.mat4_index S b a0 a1))))
  | op_mul_mat4_vec4 =>
      on S (dM4 S) (fun a0 => on S (dV4 S) (fun a1 => on0 S (ret S (eV4 S) (ModelMat.mat4_mul_vec S a0 a1))))
  | op_mul_vec4_mat4 =>
      on S (dV4 S) (fun a0 => on S (dM4 S) (fun a1 => on0 S (ret S (eV4 S) (ModelMat.vec_mul_mat4 S a0 a1))))
  | op_div_mat4_vec4 =>
      on S (dM4 S) (fun a0 => on S (dV4 S) (fun a1 => on0 S (ret S (eV4 S) (ModelMatrix.mat4_div_vec S a0 a1))))
  | op_div_vec4_mat4 =>
      on S (dV4 S) (fun a0 => on S (dM4 S) (fun a1 => on0 S (ret S (eV4 S) (ModelMatrix.vec_div_mat4 S a0 a1))))
  | op_eq_mat4_mat4 =>
      on S (dM4 S) (fun a0 => on S (dM4 S) (fun a1 => on0 S (ret S (eB S) (ModelMat.mat4_eq S a0 a1))))
  | op_ne_mat4_mat4 =>
      on S (dM4 S) (fun a0 => on S (dM4 S) (fun a1 => on0 S (ret S (eB S) (ModelMat.mat4_ne S a0 a1))))
  | make_mat4_float_ptr =>
      on S (dPF S) (fun a0 => on0 S (lift S (ret S (eM4 S)) (ModelMat.make_mat4 S b a0)))
  | quat__default =>
      on0 S (ret S (eQ S) (ModelQuat.quat_default S))
  | quat__no_init_t =>
      on0 S (Ret (blank Cquat, []))
  | quat__float_float_float_float =>
      on S (dF S) (fun a0 => on S (dF S) (fun a1 => on S (dF S) (fun a2 => on S (dF S) (fun a3 => on0 S (ret S (eQ S) (ModelQuat.quat_ctor S a0 a1 a2 a3))))))
  | quat__float_vec3 =>
      on S (dF S) (fun a0 => on S (dV3 S) (fun a1 => on0 S (ret S (eQ S) (ModelQuat.quat_sv S a0 a1))))
  | quat__vec3_float =>
      on S (dV3 S) (fun a0 => on S (dF S) (fun a1 => on0 S (ret S (eQ S) (ModelQuat.quat_vs S a0 a1))))
  | quat__wxyz_float_float_float_float =>
      on S (dF S) (fun a0 => on S (dF S) (fun a1 => on S (dF S) (fun a2 => on S (dF S) (fun a3 => on0 S (ret S (eQ S) (ModelQuat.quat_wxyz S a0 a1 a2 a3))))))
  | quat__vec3_vec3 =>
      on S (dV3 S) (fun a0 => on S (dV3 S) (fun a1 => on0 S (ret S (eQ S) (ModelQuaternion.quat_from_to S a0 a1))))
  | quat__vec3 =>
      on S (dV3 S) (fun a0 => on0 S (ret S (eQ S) (ModelQuaternion.quat_euler S a0)))
  | make_quat_float_ptr =>
      on S (dPF S) (fun a0 => on0 S (lift S (ret S (eQ S)) (ModelQuat.make_quat S b a0)))
  | quat__index =>
      on S (dQ S) (fun a0 => on S (dU S) (fun a1 => on0 S (at_index S (do _ <- ModelQuat.quat_index S b a0 a1; Ret [index (N.min a1 3)]))))
  | quat__index_const =>
      on S (dQ S) (fun a0 => on S (dU S) (fun a1 => on0 S (lift S (ret S (eF S)) (ModelQuat.quat_index S b a0 a1))))
  | quat__op_add_assign_quat =>
      on S (dQ S) (fun a0 => on S (dQ S) (fun a1 => on0 S (mutate S (eQ S) (ModelQuat.quat_add_assign S (fun _ => a1) a0))))
  | quat__op_sub_assign_quat =>
      on S (dQ S) (fun a0 => on S (dQ S) (fun a1 => on0 S (mutate S (eQ S) (ModelQuat.quat_sub_assign S (fun _ => a1) a0))))
  | quat__op_mul_assign_quat =>
      on S (dQ S) (fun a0 => on S (dQ S) (fun a1 => on0 S (mutate S (eQ S) (ModelQuat.quat_mul_assign S (fun _ => a1) a0))))
  | quat__op_mul_assign_float =>
      on S (dQ S) (fun a0 => on S (dF S) (fun a1 => on0 S (mutate S (eQ S) (ModelQuat.quat_mul_assign_sc S (fun _ => a1) a0))))
  | quat__op_div_assign_float =>
      on S (dQ S) (fun a0 => on S (dF S) (fun a1 => on0 S (mutate S (eQ S) (ModelQuat.quat_div_assign_sc S (fun _ => a1) a0))))
  | op_add_quat_quat =>
      on S (dQ S) (fun a0 => on S (dQ S) (fun a1 => on0 S (ret S (eQ S) (ModelQuat.quat_add S a0 a1))))
  | op_sub_quat_quat =>
      on S (dQ S) (fun a0 => on S (dQ S) (fun a1 => on0 S (ret S (eQ S) (ModelQuat.quat_sub S a0 a1))))
  | op_add_quat =>
      on S (dQ S) (fun a0 => on0 S (ret S (eQ S) (ModelQuat.quat_pos S a0)))
  | op_sub_quat =>
      on S (dQ S) (fun a0 => on0 S (ret S (eQ S) (ModelQuat.quat_neg S a0)))
  | op_mul_quat_quat =>
      on S (dQ S) (fun a0 => on S (dQ S) (fun a1 => on0 S (ret S (eQ S) (ModelQuat.quat_mul S a0 a1))))
  | op_mul_quat_float =>
      on S (dQ S) (fun a0 => on S (dF S) (fun a1 => on0 S (ret S (eQ S) (ModelQuat.quat_mul_sc S a0 a1))))
  | op_mul_float_quat =>
      on S (dF S) (fun a0 => on S (dQ S) (fun a1 => on0 S (ret S (eQ S) (ModelQuat.sc_mul_quat S a0 a1))))
  | op_div_float_quat =>
      on S (dF S) (fun a0 => on S (dQ S) (fun a1 => on0 S (ret S (eQ S) (ModelQuat.sc_div_quat S a0 a1))))
  | op_div_quat_float =>
      on S (dQ S) (fun a0 => on S (dF S) (fun a1 => on0 S (ret S (eQ S) (ModelQuat.quat_div_sc S a0 a1))))
  | op_mul_quat_vec3 =>
      on S (dQ S) (fun a0 => on S (dV3 S) (fun a1 => on0 S (ret S (eV3 S) (ModelQuaternion.quat_mul_vec S a0 a1))))
  | op_mul_vec3_quat =>
      on S (dV3 S) (fun a0 => on S (dQ S) (fun a1 => on0 S (ret S (eV3 S) (ModelQuaternion.vec_mul_quat S a0 a1))))
  | op_eq_quat_quat =>
      on S (dQ S) (fun a0 => on S (dQ S) (fun a1 => on0 S (ret S (eB S) (ModelQuat.quat_eq S a0 a1))))
  | op_ne_quat_quat =>
      on S (dQ S) (fun a0 => on S (dQ S) (fun a1 => on0 S (ret S (eB S) (ModelQuat.quat_ne S a0 a1))))
  | abs_float =>
      on S (dF S) (fun a0 => on0 S (ret S (eF S) (ModelCommon.abs_f S a0)))
  | abs_vec2 =>
      on S (dV2 S) (fun a0 => on0 S (ret S (eV2 S) (ModelCommon.abs2 S a0)))
  | abs_vec3 =>
      on S (dV3 S) (fun a0 => on0 S (ret S (eV3 S) (ModelCommon.abs3 S a0)))
  | abs_vec4 =>
      on S (dV4 S) (fun a0 => on0 S (ret S (eV4 S) (ModelCommon.abs4 S a0)))
  | abs_int =>
      on S (dI S) (fun a0 => on0 S (lift S (ret S (eI S)) (ModelCommon.abs_i a0)))
  | abs_ivec2 =>
      on S (dI2 S) (fun a0 => on0 S (lift S (ret S (eI2 S)) (ModelCommon.iabs2 a0)))
  | abs_ivec3 =>
      on S (dI3 S) (fun a0 => on0 S (lift S (ret S (eI3 S)) (ModelCommon.iabs3 a0)))
  | abs_ivec4 =>
      on S (dI4 S) (fun a0 => on0 S (lift S (ret S (eI4 S)) (ModelCommon.iabs4 a0)))
  | ceil_float =>
      on S (dF S) (fun a0 => on0 S (ret S (eF S) (ModelCommon.ceil_f S a0)))
  | ceil_vec2 =>
      on S (dV2 S) (fun a0 => on0 S (ret S (eV2 S) (ModelCommon.ceil2 S a0)))
  | ceil_vec3 =>
      on S (dV3 S) (fun a0 => on0 S (ret S (eV3 S) (ModelCommon.ceil3 S a0)))
  | ceil_vec4 =>
      on S (dV4 S) (fun a0 => on0 S (ret S (eV4 S) (ModelCommon.ceil4 S a0)))
  | clamp_float_float_float =>
      on S (dF S) (fun a0 => on S (dF S) (fun a1 => on S (dF S) (fun a2 => on0 S (ret S (eF S) (ModelCommon.clamp_f S a0 a1 a2)))))
  | clamp_vec2_vec2_vec2 =>
      on S (dV2 S) (fun a0 => on S (dV2 S) (fun a1 => on S (dV2 S) (fun a2 => on0 S (ret S (eV2 S) (ModelCommon.clamp2 S a0 a1 a2)))))
  | clamp_vec3_vec3_vec3 =>
      on S (dV3 S) (fun a0 => on S (dV3 S) (fun a1 => on S (dV3 S) (fun a2 => on0 S (ret S (eV3 S) (ModelCommon.clamp3 S a0 a1 a2)))))
  | clamp_vec4_vec4_vec4 =>
      on S (dV4 S) (fun a0 => on S (dV4 S) (fun a1 => on S (dV4 S) (fun a2 => on0 S (ret S (eV4 S) (ModelCommon.clamp4 S a0 a1 a2)))))
  | clamp_int_int_int =>
      on S (dI S) (fun a0 => on S (dI S) (fun a1 => on S (dI S) (fun a2 => on0 S (ret S (eI S) (ModelCommon.clamp_i a0 a1 a2)))))
  | clamp_ivec2_ivec2_ivec2 =>
      on S (dI2 S) (fun a0 => on S (dI2 S) (fun a1 => on S (dI2 S) (fun a2 => on0 S (ret S (eI2 S) (ModelCommon.iclamp2 a0 a1 a2)))))
  | clamp_ivec3_ivec3_ivec3 =>
      on S (dI3 S) (fun a0 => on S (dI3 S) (fun a1 => on S (dI3 S) (fun a2 => on0 S (ret S (eI3 S) (ModelCommon.iclamp3 a0 a1 a2)))))
  | clamp_ivec4_ivec4_ivec4 =>
      on S (dI4 S) (fun a0 => on S (dI4 S) (fun a1 => on S (dI4 S) (fun a2 => on0 S (ret S (eI4 S) (ModelCommon.iclamp4 a0 a1 a2)))))
  | floor_float =>
      on S (dF S) (fun a0 => on0 S (ret S (eF S) (ModelCommon.floor_f S a0)))
  | floor_vec2 =>
      on S (dV2 S) (fun a0 => on0 S (ret S (eV2 S) (ModelCommon.floor2 S a0)))
  | floor_vec3 =>
      on S (dV3 S) (fun a0 => on0 S (ret S (eV3 S) (ModelCommon.floor3 S a0)))
  | floor_vec4 =>
      on S (dV4 S) (fun a0 => on0 S (ret S (eV4 S) (ModelCommon.floor4 S a0)))
  | fma_float_float_float =>
      on S (dF S) (fun a0 => on S (dF S) (fun a1 => on S (dF S) (fun a2 => on0 S (ret S (eF S) (ModelCommon.fma_f S a0 a1 a2)))))
  | fma_vec2_vec2_vec2 =>
      on S (dV2 S) (fun a0 => on S (dV2 S) (fun a1 => on S (dV2 S) (fun a2 => on0 S (ret S (eV2 S) (ModelCommon.fma2 S a0 a1 a2)))))
  | fma_vec3_vec3_vec3 =>
      on S (dV3 S) (fun a0 => on S (dV3 S) (fun a1 => on S (dV3 S) (fun a2 => on0 S (ret S (eV3 S) (ModelCommon.fma3 S a0 a1 a2)))))
  | fma_vec4_vec4_vec4 =>
      on S (dV4 S) (fun a0 => on S (dV4 S) (fun a1 => on S (dV4 S) (fun a2 => on0 S (ret S (eV4 S) (ModelCommon.fma4 S a0 a1 a2)))))
  | fract_float =>
      on S (dF S) (fun a0 => on0 S (ret S (eF S) (ModelCommon.fract_f S a0)))
  | fract_vec2 =>
      on S (dV2 S) (fun a0 => on0 S (ret S (eV2 S) (ModelCommon.fract2 S a0)))
  | fract_vec3 =>
      on S (dV3 S) (fun a0 => on0 S (ret S (eV3 S) (ModelCommon.fract3 S a0)))
  | fract_vec4 =>
      on S (dV4 S) (fun a0 => on0 S (ret S (eV4 S) (ModelCommon.fract4 S a0)))
  | max_float_float =>
      on S (dF S) (fun a0 => on S (dF S) (fun a1 => on0 S (ret S (eF S) (ModelCommon.max_f S a0 a1))))
  | max_vec2_vec2 =>
      on S (dV2 S) (fun a0 => on S (dV2 S) (fun a1 => on0 S (ret S (eV2 S) (ModelCommon.max2 S a0 a1))))
  | max_vec3_vec3 =>
      on S (dV3 S) (fun a0 => on S (dV3 S) (fun a1 => on0 S (ret S (eV3 S) (ModelCommon.max3 S a0 a1))))
  | max_vec4_vec4 =>
      on S (dV4 S) (fun a0 => on S (dV4 S) (fun a1 => on0 S (ret S (eV4 S) (ModelCommon.max4 S a0 a1))))
  | max_int_int =>
      on S (dI S) (fun a0 => on S (dI S) (fun a1 => on0 S (ret S (eI S) (ModelCommon.max_i a0 a1))))
  | max_ivec2_ivec2 =>
      on S (dI2 S) (fun a0 => on S (dI2 S) (fun a1 => on0 S (ret S (eI2 S) (ModelCommon.imax2 a0 a1))))
  | max_ivec3_ivec3 =>
      on S (dI3 S) (fun a0 => on S (dI3 S) (fun a1 => on0 S (ret S (eI3 S) (ModelCommon.imax3 a0 a1))))
  | max_ivec4_ivec4 =>
      on S (dI4 S) (fun a0 => on S (dI4 S) (fun a1 => on0 S (ret S (eI4 S) (ModelCommon.imax4 a0 a1))))
  | min_float_float =>
      on S (dF S) (fun a0 => on S (dF S) (fun a1 => on0 S (ret S (eF S) (ModelCommon.min_f S a0 a1))))
  | min_vec2_vec2 =>
      on S (dV2 S) (fun a0 => on S (dV2 S) (fun a1 => on0 S (ret S (eV2 S) (ModelCommon.min2 S a0 a1))))
  | min_vec3_vec3 =>
      on S (dV3 S) (fun a0 => on S (dV3 S) (fun a1 => on0 S (ret S (eV3 S) (ModelCommon.min3 S a0 a1))))
  | min_vec4_vec4 =>
      on S (dV4 S) (fun a0 => on S (dV4 S) (fun a1 => on0 S (ret S (eV4 S) (ModelCommon.min4 S a0 a1))))
  | min_int_int =>
      on S (dI S) (fun a0 => on S (dI S) (fun a1 => on0 S (ret S (eI S) (ModelCommon.min_i a0 a1))))
  | min_ivec2_ivec2 =>
      on S (dI2 S) (fun a0 => on S (dI2 S) (fun a1 => on0 S (ret S (eI2 S) (ModelCommon.imin2 a0 a1))))
  | min_ivec3_ivec3 =>
      on S (dI3 S) (fun a0 => on S (dI3 S) (fun a1 => on0 S (ret S (eI3 S) (ModelCommon.imin3 a0 a1))))
  | min_ivec4_ivec4 =>
      on S (dI4 S) (fun a0 => on S (dI4 S) (fun a1 => on0 S (ret S (eI4 S) (ModelCommon.imin4 a0 a1))))
  | mod_float_float =>
      on S (dF S) (fun a0 => on S (dF S) (fun a1 => on0 S (ret S (eF S) (ModelCommon.mod_f S a0 a1))))
  | mod_vec2_vec2 =>
      on S (dV2 S) (fun a0 => on S (dV2 S) (fun a1 => on0 S (ret S (eV2 S) (ModelCommon.mod2 S a0 a1))))
  | mod_vec3_vec3 =>
      on S (dV3 S) (fun a0 => on S (dV3 S) (fun a1 => on0 S (ret S (eV3 S) (ModelCommon.mod3 S a0 a1))))
  | mod_vec4_vec4 =>
      on S (dV4 S) (fun a0 => on S (dV4 S) (fun a1 => on0 S (ret S (eV4 S) (ModelCommon.mod4 S a0 a1))))
  | mod_vec2_float =>
      on S (dV2 S) (fun a0 => on S (dF S) (fun a1 => on0 S (ret S (eV2 S) (ModelCommon.mod2_sc S a0 a1))))
  | mod_vec3_float =>
      on S (dV3 S) (fun a0 => on S (dF S) (fun a1 => on0 S (ret S (eV3 S) (ModelCommon.mod3_sc S a0 a1))))
  | mod_vec4_float =>
      on S (dV4 S) (fun a0 => on S (dF S) (fun a1 => on0 S (ret S (eV4 S) (ModelCommon.mod4_sc S a0 a1))))
  | round_float =>
      on S (dF S) (fun a0 => on0 S (ret S (eF S) (ModelCommon.round_f S a0)))
  | round_vec2 =>
      on S (dV2 S) (fun a0 => on0 S (ret S (eV2 S) (ModelCommon.round2 S a0)))
  | round_vec3 =>
      on S (dV3 S) (fun a0 => on0 S (ret S (eV3 S) (ModelCommon.round3 S a0)))
  | round_vec4 =>
      on S (dV4 S) (fun a0 => on0 S (ret S (eV4 S) (ModelCommon.round4 S a0)))
  | roundEven_float =>
      on S (dF S) (fun a0 => on0 S (ret S (eF S) (ModelCommon.roundEven_f S a0)))
  | roundEven_vec2 =>
      on S (dV2 S) (fun a0 => on0 S (ret S (eV2 S) (ModelCommon.roundEven2 S a0)))
  | roundEven_vec3 =>
      on S (dV3 S) (fun a0 => on0 S (ret S (eV3 S) (ModelCommon.roundEven3 S a0)))
  | roundEven_vec4 =>
      on S (dV4 S) (fun a0 => on0 S (ret S (eV4 S) (ModelCommon.roundEven4 S a0)))
  | sign_float =>
      on S (dF S) (fun a0 => on0 S (ret S (eF S) (ModelCommon.sign_f S a0)))
  | sign_vec2 =>
      on S (dV2 S) (fun a0 => on0 S (ret S (eV2 S) (ModelCommon.sign2 S a0)))
  | sign_vec3 =>
      on S (dV3 S) (fun a0 => on0 S (ret S (eV3 S) (ModelCommon.sign3 S a0)))
  | sign_vec4 =>
      on S (dV4 S) (fun a0 => on0 S (ret S (eV4 S) (ModelCommon.sign4 S a0)))
  | sign_int =>
      on S (dI S) (fun a0 => on0 S (ret S (eI S) (ModelCommon.sign_i a0)))
  | sign_ivec2 =>
      on S (dI2 S) (fun a0 => on0 S (ret S (eI2 S) (ModelCommon.isign2 a0)))
  | sign_ivec3 =>
      on S (dI3 S) (fun a0 => on0 S (ret S (eI3 S) (ModelCommon.isign3 a0)))
  | sign_ivec4 =>
      on S (dI4 S) (fun a0 => on0 S (ret S (eI4 S) (ModelCommon.isign4 a0)))
  | signNotZero_float =>
      on S (dF S) (fun a0 => on0 S (ret S (eF S) (ModelCommon.signNotZero_f S a0)))
  | signNotZero_vec2 =>
      on S (dV2 S) (fun a0 => on0 S (ret S (eV2 S) (ModelCommon.signNotZero2 S a0)))
  | signNotZero_vec3 =>
      on S (dV3 S) (fun a0 => on0 S (ret S (eV3 S) (ModelCommon.signNotZero3 S a0)))
  | signNotZero_vec4 =>
      on S (dV4 S) (fun a0 => on0 S (ret S (eV4 S) (ModelCommon.signNotZero4 S a0)))
  | signNotZero_int =>
      on S (dI S) (fun a0 => on0 S (ret S (eI S) (ModelCommon.signNotZero_i a0)))
  | signNotZero_ivec2 =>
      on S (dI2 S) (fun a0 => on0 S (ret S (eI2 S) (ModelCommon.isignNotZero2 a0)))
  | signNotZero_ivec3 =>
      on S (dI3 S) (fun a0 => on0 S (ret S (eI3 S) (ModelCommon.isignNotZero3 a0)))
  | signNotZero_ivec4 =>
      on S (dI4 S) (fun a0 => on0 S (ret S (eI4 S) (ModelCommon.isignNotZero4 a0)))
  | trunc_float =>
      on S (dF S) (fun a0 => on0 S (ret S (eF S) (ModelCommon.trunc_f S a0)))
  | trunc_vec2 =>
      on S (dV2 S) (fun a0 => on0 S (ret S (eV2 S) (ModelCommon.trunc2 S a0)))
  | trunc_vec3 =>
      on S (dV3 S) (fun a0 => on0 S (ret S (eV3 S) (ModelCommon.trunc3 S a0)))
  | trunc_vec4 =>
      on S (dV4 S) (fun a0 => on0 S (ret S (eV4 S) (ModelCommon.trunc4 S a0)))
  | smoothstep_float_float_float =>
      on S (dF S) (fun a0 => on S (dF S) (fun a1 => on S (dF S) (fun a2 => on0 S (ret S (eF S) (ModelCommon.smoothstep_f S a0 a1 a2)))))
  | smoothstep_vec2_vec2_vec2 =>
      on S (dV2 S) (fun a0 => on S (dV2 S) (fun a1 => on S (dV2 S) (fun a2 => on0 S (ret S (eV2 S) (ModelCommon.smoothstep2 S a0 a1 a2)))))
  | smoothstep_vec3_vec3_vec3 =>
      on S (dV3 S) (fun a0 => on S (dV3 S) (fun a1 => on S (dV3 S) (fun a2 => on0 S (ret S (eV3 S) (ModelCommon.smoothstep3 S a0 a1 a2)))))
  | smoothstep_vec4_vec4_vec4 =>
      on S (dV4 S) (fun a0 => on S (dV4 S) (fun a1 => on S (dV4 S) (fun a2 => on0 S (ret S (eV4 S) (ModelCommon.smoothstep4 S a0 a1 a2)))))
  | step_float_float =>
      on S (dF S) (fun a0 => on S (dF S) (fun a1 => on0 S (ret S (eF S) (ModelCommon.step_f S a0 a1))))
  | step_vec2_vec2 =>
      on S (dV2 S) (fun a0 => on S (dV2 S) (fun a1 => on0 S (ret S (eV2 S) (ModelCommon.step2 S a0 a1))))
  | step_vec3_vec3 =>
      on S (dV3 S) (fun a0 => on S (dV3 S) (fun a1 => on0 S (ret S (eV3 S) (ModelCommon.step3 S a0 a1))))
  | step_vec4_vec4 =>
      on S (dV4 S) (fun a0 => on S (dV4 S) (fun a1 => on0 S (ret S (eV4 S) (ModelCommon.step4 S a0 a1))))
  | mix_float_float_float =>
      on S (dF S) (fun a0 => on S (dF S) (fun a1 => on S (dF S) (fun a2 => on0 S (ret S (eF S) (ModelCommon.mix_f S a0 a1 a2)))))
  | mix_vec2_vec2_vec2 =>
      on S (dV2 S) (fun a0 => on S (dV2 S) (fun a1 => on S (dV2 S) (fun a2 => on0 S (ret S (eV2 S) (ModelCommon.mix2 S a0 a1 a2)))))
  | mix_vec3_vec3_vec3 =>
      on S (dV3 S) (fun a0 => on S (dV3 S) (fun a1 => on S (dV3 S) (fun a2 => on0 S (ret S (eV3 S) (ModelCommon.mix3 S a0 a1 a2)))))
  | mix_vec4_vec4_vec4 =>
      on S (dV4 S) (fun a0 => on S (dV4 S) (fun a1 => on S (dV4 S) (fun a2 => on0 S (ret S (eV4 S) (ModelCommon.mix4 S a0 a1 a2)))))
  | mix_vec2_vec2_float =>
      on S (dV2 S) (fun a0 => on S (dV2 S) (fun a1 => on S (dF S) (fun a2 => on0 S (ret S (eV2 S) (ModelCommon.mix2_sc S a0 a1 a2)))))
  | mix_vec3_vec3_float =>
      on S (dV3 S) (fun a0 => on S (dV3 S) (fun a1 => on S (dF S) (fun a2 => on0 S (ret S (eV3 S) (ModelCommon.mix3_sc S a0 a1 a2)))))
  | mix_vec4_vec4_float =>
      on S (dV4 S) (fun a0 => on S (dV4 S) (fun a1 => on S (dF S) (fun a2 => on0 S (ret S (eV4 S) (ModelCommon.mix4_sc S a0 a1 a2)))))
  | mix_float_float_bool =>
      on S (dF S) (fun a0 => on S (dF S) (fun a1 => on S (dB S) (fun a2 => on0 S (ret S (eF S) (ModelCommon.mix_b S a0 a1 a2)))))
  | mix_vec2_vec2_bvec2 =>
      on S (dV2 S) (fun a0 => on S (dV2 S) (fun a1 => on S (dB2 S) (fun a2 => on0 S (ret S (eV2 S) (ModelCommon.mix2_b S a0 a1 a2)))))
  | mix_vec3_vec3_bvec3 =>
      on S (dV3 S) (fun a0 => on S (dV3 S) (fun a1 => on S (dB3 S) (fun a2 => on0 S (ret S (eV3 S) (ModelCommon.mix3_b S a0 a1 a2)))))
  | mix_vec4_vec4_bvec4 =>
      on S (dV4 S) (fun a0 => on S (dV4 S) (fun a1 => on S (dB4 S) (fun a2 => on0 S (ret S (eV4 S) (ModelCommon.mix4_b S a0 a1 a2)))))
  | isinf_float =>
      on S (dF S) (fun a0 => on0 S (ret S (eB S) (ModelCommon.isinf_f S a0)))
  | isinf_vec2 =>
      on S (dV2 S) (fun a0 => on0 S (ret S (eB2 S) (ModelCommon.isinf2 S a0)))
  | isinf_vec3 =>
      on S (dV3 S) (fun a0 => on0 S (ret S (eB3 S) (ModelCommon.isinf3 S a0)))
  | isinf_vec4 =>
      on S (dV4 S) (fun a0 => on0 S (ret S (eB4 S) (ModelCommon.isinf4 S a0)))
  | isinf_quat =>
      on S (dQ S) (fun a0 => on0 S (ret S (eB4 S) (ModelCommon.isinf_q S a0)))
  | isnan_float =>
      on S (dF S) (fun a0 => on0 S (ret S (eB S) (ModelCommon.isnan_f S a0)))
  | isnan_vec2 =>
      on S (dV2 S) (fun a0 => on0 S (ret S (eB2 S) (ModelCommon.isnan2 S a0)))
  | isnan_vec3 =>
      on S (dV3 S) (fun a0 => on0 S (ret S (eB3 S) (ModelCommon.isnan3 S a0)))
  | isnan_vec4 =>
      on S (dV4 S) (fun a0 => on0 S (ret S (eB4 S) (ModelCommon.isnan4 S a0)))
  | isnan_quat =>
      on S (dQ S) (fun a0 => on0 S (ret S (eB4 S) (ModelCommon.isnan_q S a0)))
  | lessThan_vec2_vec2 =>
      on S (dV2 S) (fun a0 => on S (dV2 S) (fun a1 => on0 S (ret S (eB2 S) (ModelCommon.lessThan2 S a0 a1))))
  | lessThan_vec3_vec3 =>
      on S (dV3 S) (fun a0 => on S (dV3 S) (fun a1 => on0 S (ret S (eB3 S) (ModelCommon.lessThan3 S a0 a1))))
  | lessThan_vec4_vec4 =>
      on S (dV4 S) (fun a0 => on S (dV4 S) (fun a1 => on0 S (ret S (eB4 S) (ModelCommon.lessThan4 S a0 a1))))
  | lessThanEqual_vec2_vec2 =>
      on S (dV2 S) (fun a0 => on S (dV2 S) (fun a1 => on0 S (ret S (eB2 S) (ModelCommon.lessThanEqual2 S a0 a1))))
  | lessThanEqual_vec3_vec3 =>
      on S (dV3 S) (fun a0 => on S (dV3 S) (fun a1 => on0 S (ret S (eB3 S) (ModelCommon.lessThanEqual3 S a0 a1))))
  | lessThanEqual_vec4_vec4 =>
      on S (dV4 S) (fun a0 => on S (dV4 S) (fun a1 => on0 S (ret S (eB4 S) (ModelCommon.lessThanEqual4 S a0 a1))))
  | greaterThan_vec2_vec2 =>
      on S (dV2 S) (fun a0 => on S (dV2 S) (fun a1 => on0 S (ret S (eB2 S) (ModelCommon.greaterThan2 S a0 a1))))
  | greaterThan_vec3_vec3 =>
      on S (dV3 S) (fun a0 => on S (dV3 S) (fun a1 => on0 S (ret S (eB3 S) (ModelCommon.greaterThan3 S a0 a1))))
  | greaterThan_vec4_vec4 =>
      on S (dV4 S) (fun a0 => on S (dV4 S) (fun a1 => on0 S (ret S (eB4 S) (ModelCommon.greaterThan4 S a0 a1))))
  | greaterThanEqual_vec2_vec2 =>
      on S (dV2 S) (fun a0 => on S (dV2 S) (fun a1 => on0 S (ret S (eB2 S) (ModelCommon.greaterThanEqual2 S a0 a1))))
  | greaterThanEqual_vec3_vec3 =>
      on S (dV3 S) (fun a0 => on S (dV3 S) (fun a1 => on0 S (ret S (eB3 S) (ModelCommon.greaterThanEqual3 S a0 a1))))
  | greaterThanEqual_vec4_vec4 =>
      on S (dV4 S) (fun a0 => on S (dV4 S) (fun a1 => on0 S (ret S (eB4 S) (ModelCommon.greaterThanEqual4 S a0 a1))))
  | equal_vec2_vec2 =>
      on S (dV2 S) (fun a0 => on S (dV2 S) (fun a1 => on0 S (ret S (eB2 S) (ModelCommon.equal2 S a0 a1))))
  | equal_vec3_vec3 =>
      on S (dV3 S) (fun a0 => on S (dV3 S) (fun a1 => on0 S (ret S (eB3 S) (ModelCommon.equal3 S a0 a1))))
  | equal_vec4_vec4 =>
      on S (dV4 S) (fun a0 => on S (dV4 S) (fun a1 => on0 S (ret S (eB4 S) (ModelCommon.equal4 S a0 a1))))
  | equal_quat_quat =>
      on S (dQ S) (fun a0 => on S (dQ S) (fun a1 => on0 S (ret S (eB4 S) (ModelCommon.equal_q S a0 a1))))
  | equal_bvec2_bvec2 =>
      on S (dB2 S) (fun a0 => on S (dB2 S) (fun a1 => on0 S (ret S (eB2 S) (ModelCommon.bequal2 a0 a1))))
  | equal_bvec3_bvec3 =>
      on S (dB3 S) (fun a0 => on S (dB3 S) (fun a1 => on0 S (ret S (eB3 S) (ModelCommon.bequal3 a0 a1))))
  | equal_bvec4_bvec4 =>
      on S (dB4 S) (fun a0 => on S (dB4 S) (fun a1 => on0 S (ret S (eB4 S) (ModelCommon.bequal4 a0 a1))))
  | notEqual_vec2_vec2 =>
      on S (dV2 S) (fun a0 => on S (dV2 S) (fun a1 => on0 S (ret S (eB2 S) (ModelCommon.notEqual2 S a0 a1))))
  | notEqual_vec3_vec3 =>
      on S (dV3 S) (fun a0 => on S (dV3 S) (fun a1 => on0 S (ret S (eB3 S) (ModelCommon.notEqual3 S a0 a1))))
  | notEqual_vec4_vec4 =>
      on S (dV4 S) (fun a0 => on S (dV4 S) (fun a1 => on0 S (ret S (eB4 S) (ModelCommon.notEqual4 S a0 a1))))
  | notEqual_quat_quat =>
      on S (dQ S) (fun a0 => on S (dQ S) (fun a1 => on0 S (ret S (eB4 S) (ModelCommon.notEqual_q S a0 a1))))
  | notEqual_bvec2_bvec2 =>
      on S (dB2 S) (fun a0 => on S (dB2 S) (fun a1 => on0 S (ret S (eB2 S) (ModelCommon.bnotEqual2 a0 a1))))
  | notEqual_bvec3_bvec3 =>
      on S (dB3 S) (fun a0 => on S (dB3 S) (fun a1 => on0 S (ret S (eB3 S) (ModelCommon.bnotEqual3 a0 a1))))
  | notEqual_bvec4_bvec4 =>
      on S (dB4 S) (fun a0 => on S (dB4 S) (fun a1 => on0 S (ret S (eB4 S) (ModelCommon.bnotEqual4 a0 a1))))
  | all_bvec2 =>
      on S (dB2 S) (fun a0 => on0 S (ret S (eB S) (ModelCommon.all2 a0)))
  | all_bvec3 =>
      on S (dB3 S) (fun a0 => on0 S (ret S (eB S) (ModelCommon.all3 a0)))
  | all_bvec4 =>
      on S (dB4 S) (fun a0 => on0 S (ret S (eB S) (ModelCommon.all4 a0)))
  | any_bvec2 =>
      on S (dB2 S) (fun a0 => on0 S (ret S (eB S) (ModelCommon.any2 a0)))
  | any_bvec3 =>
      on S (dB3 S) (fun a0 => on0 S (ret S (eB S) (ModelCommon.any3 a0)))
  | any_bvec4 =>
      on S (dB4 S) (fun a0 => on0 S (ret S (eB S) (ModelCommon.any4 a0)))
  | dot_float_float =>
      on S (dF S) (fun a0 => on S (dF S) (fun a1 => on0 S (ret S (eF S) (ModelGeom.dot_f S a0 a1))))
  | dot_vec2_vec2 =>
      on S (dV2 S) (fun a0 => on S (dV2 S) (fun a1 => on0 S (ret S (eF S) (ModelGeom.dot2 S a0 a1))))
  | dot_vec3_vec3 =>
      on S (dV3 S) (fun a0 => on S (dV3 S) (fun a1 => on0 S (ret S (eF S) (ModelGeom.dot3 S a0 a1))))
  | dot_vec4_vec4 =>
      on S (dV4 S) (fun a0 => on S (dV4 S) (fun a1 => on0 S (ret S (eF S) (ModelGeom.dot4 S a0 a1))))
  | dot_quat_quat =>
      on S (dQ S) (fun a0 => on S (dQ S) (fun a1 => on0 S (ret S (eF S) (ModelGeom.dot_q S a0 a1))))
  | cross_vec3_vec3 =>
      on S (dV3 S) (fun a0 => on S (dV3 S) (fun a1 => on0 S (ret S (eV3 S) (ModelGeom.cross S a0 a1))))
  | normalize_vec2 =>
      on S (dV2 S) (fun a0 => on0 S (ret S (eV2 S) (ModelGeom.normalize2 S a0)))
  | normalize_vec3 =>
      on S (dV3 S) (fun a0 => on0 S (ret S (eV3 S) (ModelGeom.normalize3 S a0)))
  | normalize_vec4 =>
      on S (dV4 S) (fun a0 => on0 S (ret S (eV4 S) (ModelGeom.normalize4 S a0)))
  | normalize_quat =>
      on S (dQ S) (fun a0 => on0 S (ret S (eQ S) (ModelGeom.normalize_q S a0)))
  | distance_float_float =>
      on S (dF S) (fun a0 => on S (dF S) (fun a1 => on0 S (ret S (eF S) (ModelGeom.distance_f S a0 a1))))
  | distance_vec2_vec2 =>
      on S (dV2 S) (fun a0 => on S (dV2 S) (fun a1 => on0 S (ret S (eF S) (ModelGeom.distance2 S a0 a1))))
  | distance_vec3_vec3 =>
      on S (dV3 S) (fun a0 => on S (dV3 S) (fun a1 => on0 S (ret S (eF S) (ModelGeom.distance3 S a0 a1))))
  | distance_vec4_vec4 =>
      on S (dV4 S) (fun a0 => on S (dV4 S) (fun a1 => on0 S (ret S (eF S) (ModelGeom.distance4 S a0 a1))))
  | faceforward_float_float_float =>
      on S (dF S) (fun a0 => on S (dF S) (fun a1 => on S (dF S) (fun a2 => on0 S (ret S (eF S) (ModelGeom.faceforward_f S a0 a1 a2)))))
  | faceforward_vec2_vec2_vec2 =>
      on S (dV2 S) (fun a0 => on S (dV2 S) (fun a1 => on S (dV2 S) (fun a2 => on0 S (ret S (eV2 S) (ModelGeom.faceforward2 S a0 a1 a2)))))
  | faceforward_vec3_vec3_vec3 =>
      on S (dV3 S) (fun a0 => on S (dV3 S) (fun a1 => on S (dV3 S) (fun a2 => on0 S (ret S (eV3 S) (ModelGeom.faceforward3 S a0 a1 a2)))))
  | faceforward_vec4_vec4_vec4 =>
      on S (dV4 S) (fun a0 => on S (dV4 S) (fun a1 => on S (dV4 S) (fun a2 => on0 S (ret S (eV4 S) (ModelGeom.faceforward4 S a0 a1 a2)))))
  | reflect_float_float =>
      on S (dF S) (fun a0 => on S (dF S) (fun a1 => on0 S (ret S (eF S) (ModelGeom.reflect_f S a0 a1))))
  | reflect_vec2_vec2 =>
      on S (dV2 S) (fun a0 => on S (dV2 S) (fun a1 => on0 S (ret S (eV2 S) (ModelGeom.reflect2 S a0 a1))))
  | reflect_vec3_vec3 =>
      on S (dV3 S) (fun a0 => on S (dV3 S) (fun a1 => on0 S (ret S (eV3 S) (ModelGeom.reflect3 S a0 a1))))
  | reflect_vec4_vec4 =>
      on S (dV4 S) (fun a0 => on S (dV4 S) (fun a1 => on0 S (ret S (eV4 S) (ModelGeom.reflect4 S a0 a1))))
  | refract_float_float_float =>
      on S (dF S) (fun a0 => on S (dF S) (fun a1 => on S (dF S) (fun a2 => on0 S (ret S (eF S) (ModelGeom.refract_f S a0 a1 a2)))))
  | refract_vec2_vec2_float =>
      on S (dV2 S) (fun a0 => on S (dV2 S) (fun a1 => on S (dF S) (fun a2 => on0 S (ret S (eV2 S) (ModelGeom.refract2 S a0 a1 a2)))))
  | refract_vec3_vec3_float =>
      on S (dV3 S) (fun a0 => on S (dV3 S) (fun a1 => on S (dF S) (fun a2 => on0 S (ret S (eV3 S) (ModelGeom.refract3 S a0 a1 a2)))))
  | refract_vec4_vec4_float =>
      on S (dV4 S) (fun a0 => on S (dV4 S) (fun a1 => on S (dF S) (fun a2 => on0 S (ret S (eV4 S) (ModelGeom.refract4 S a0 a1 a2)))))
  | length_float =>
      on S (dF S) (fun a0 => on0 S (ret S (eF S) (ModelGeom.length_f S a0)))
  | length_vec2 =>
      on S (dV2 S) (fun a0 => on0 S (ret S (eF S) (ModelGeom.length2 S a0)))
  | length_vec3 =>
      on S (dV3 S) (fun a0 => on0 S (ret S (eF S) (ModelGeom.length3 S a0)))
  | length_vec4 =>
      on S (dV4 S) (fun a0 => on0 S (ret S (eF S) (ModelGeom.length4 S a0)))
  | length_quat =>
      on S (dQ S) (fun a0 => on0 S (ret S (eF S) (ModelGeom.length_q S a0)))
  | length2_float =>
      on S (dF S) (fun a0 => on0 S (ret S (eF S) (ModelGeom.length2_f S a0)))
  | length2_vec2 =>
      on S (dV2 S) (fun a0 => on0 S (ret S (eF S) (ModelGeom.length2_2 S a0)))
  | length2_vec3 =>
      on S (dV3 S) (fun a0 => on0 S (ret S (eF S) (ModelGeom.length2_3 S a0)))
  | length2_vec4 =>
      on S (dV4 S) (fun a0 => on0 S (ret S (eF S) (ModelGeom.length2_4 S a0)))
  | length2_quat =>
      on S (dQ S) (fun a0 => on0 S (ret S (eF S) (ModelGeom.length2_q S a0)))
  | distance2_float_float =>
      on S (dF S) (fun a0 => on S (dF S) (fun a1 => on0 S (ret S (eF S) (ModelGeom.distance2_f S a0 a1))))
  | distance2_vec2_vec2 =>
      on S (dV2 S) (fun a0 => on S (dV2 S) (fun a1 => on0 S (ret S (eF S) (ModelGeom.distance2_2 S a0 a1))))
  | distance2_vec3_vec3 =>
      on S (dV3 S) (fun a0 => on S (dV3 S) (fun a1 => on0 S (ret S (eF S) (ModelGeom.distance2_3 S a0 a1))))
  | distance2_vec4_vec4 =>
      on S (dV4 S) (fun a0 => on S (dV4 S) (fun a1 => on0 S (ret S (eF S) (ModelGeom.distance2_4 S a0 a1))))
  | orthogonal_vec3 =>
      on S (dV3 S) (fun a0 => on0 S (ret S (eV3 S) (ModelGeom.orthogonal S a0)))
  | orthogonal_branchless_vec3 =>
      on S (dV3 S) (fun a0 => on0 S (ret S (eV3 S) (ModelGeom.orthogonal_branchless S a0)))
  | encode_octahedral_vec3 =>
      on S (dV3 S) (fun a0 => on0 S (ret S (eV2 S) (ModelGeom.encode_octahedral S a0)))
  | decode_octahedral_vec2 =>
      on S (dV2 S) (fun a0 => on0 S (ret S (eV3 S) (ModelGeom.decode_octahedral S a0)))
  | sqrt_float =>
      on S (dF S) (fun a0 => on0 S (ret S (eF S) (ModelExp.sqrt_f S a0)))
  | sqrt_vec2 =>
      on S (dV2 S) (fun a0 => on0 S (ret S (eV2 S) (ModelExp.sqrt2 S a0)))
  | sqrt_vec3 =>
      on S (dV3 S) (fun a0 => on0 S (ret S (eV3 S) (ModelExp.sqrt3 S a0)))
  | sqrt_vec4 =>
      on S (dV4 S) (fun a0 => on0 S (ret S (eV4 S) (ModelExp.sqrt4 S a0)))
  | sqrt_quat =>
      on S (dQ S) (fun a0 => on0 S (ret S (eQ S) (ModelExp.sqrt_q S a0)))
  | pow_float_float =>
      on S (dF S) (fun a0 => on S (dF S) (fun a1 => on0 S (ret S (eF S) (ModelExp.pow_f S a0 a1))))
  | pow_vec2_vec2 =>
      on S (dV2 S) (fun a0 => on S (dV2 S) (fun a1 => on0 S (ret S (eV2 S) (ModelExp.pow2 S a0 a1))))
  | pow_vec3_vec3 =>
      on S (dV3 S) (fun a0 => on S (dV3 S) (fun a1 => on0 S (ret S (eV3 S) (ModelExp.pow3 S a0 a1))))
  | pow_vec4_vec4 =>
      on S (dV4 S) (fun a0 => on S (dV4 S) (fun a1 => on0 S (ret S (eV4 S) (ModelExp.pow4 S a0 a1))))
  | pow_quat_float =>
      on S (dQ S) (fun a0 => on S (dF S) (fun a1 => on0 S (ret S (eQ S) (ModelExp.pow_q S a0 a1))))
  | log_float =>
      on S (dF S) (fun a0 => on0 S (ret S (eF S) (ModelExp.log_f S a0)))
  | log_vec2 =>
      on S (dV2 S) (fun a0 => on0 S (ret S (eV2 S) (ModelExp.log2 S a0)))
  | log_vec3 =>
      on S (dV3 S) (fun a0 => on0 S (ret S (eV3 S) (ModelExp.log3 S a0)))
  | log_vec4 =>
      on S (dV4 S) (fun a0 => on0 S (ret S (eV4 S) (ModelExp.log4 S a0)))
  | log_quat =>
      on S (dQ S) (fun a0 => on0 S (ret S (eQ S) (ModelExp.log_q S a0)))
  | log2_float =>
      on S (dF S) (fun a0 => on0 S (ret S (eF S) (ModelExp.log2_f S a0)))
  | log2_vec2 =>
      on S (dV2 S) (fun a0 => on0 S (ret S (eV2 S) (ModelExp.log22 S a0)))
  | log2_vec3 =>
      on S (dV3 S) (fun a0 => on0 S (ret S (eV3 S) (ModelExp.log23 S a0)))
  | log2_vec4 =>
      on S (dV4 S) (fun a0 => on0 S (ret S (eV4 S) (ModelExp.log24 S a0)))
  | log2_quat =>
      on S (dQ S) (fun a0 => on0 S (ret S (eQ S) (ModelExp.log2_q S a0)))
  | inversesqrt_float =>
      on S (dF S) (fun a0 => on0 S (ret S (eF S) (ModelExp.inversesqrt_f S a0)))
  | inversesqrt_vec2 =>
      on S (dV2 S) (fun a0 => on0 S (ret S (eV2 S) (ModelExp.inversesqrt2 S a0)))
  | inversesqrt_vec3 =>
      on S (dV3 S) (fun a0 => on0 S (ret S (eV3 S) (ModelExp.inversesqrt3 S a0)))
  | inversesqrt_vec4 =>
      on S (dV4 S) (fun a0 => on0 S (ret S (eV4 S) (ModelExp.inversesqrt4 S a0)))
  | inversesqrt_quat =>
      on S (dQ S) (fun a0 => on0 S (ret S (eQ S) (ModelExp.inversesqrt_q S a0)))
  | exp_float =>
      on S (dF S) (fun a0 => on0 S (ret S (eF S) (ModelExp.exp_f S a0)))
  | exp_vec2 =>
      on S (dV2 S) (fun a0 => on0 S (ret S (eV2 S) (ModelExp.exp2 S a0)))
  | exp_vec3 =>
      on S (dV3 S) (fun a0 => on0 S (ret S (eV3 S) (ModelExp.exp3 S a0)))
  | exp_vec4 =>
      on S (dV4 S) (fun a0 => on0 S (ret S (eV4 S) (ModelExp.exp4 S a0)))
  | exp_quat =>
      on S (dQ S) (fun a0 => on0 S (ret S (eQ S) (ModelExp.exp_q S a0)))
  | exp2_float =>
      on S (dF S) (fun a0 => on0 S (ret S (eF S) (ModelExp.exp2_f S a0)))
  | exp2_vec2 =>
      on S (dV2 S) (fun a0 => on0 S (ret S (eV2 S) (ModelExp.exp22 S a0)))
  | exp2_vec3 =>
      on S (dV3 S) (fun a0 => on0 S (ret S (eV3 S) (ModelExp.exp23 S a0)))
  | exp2_vec4 =>
      on S (dV4 S) (fun a0 => on0 S (ret S (eV4 S) (ModelExp.exp24 S a0)))
  | exp2_quat =>
      on S (dQ S) (fun a0 => on0 S (ret S (eQ S) (ModelExp.exp2_q S a0)))
  | cbrt_float =>
      on S (dF S) (fun a0 => on0 S (ret S (eF S) (ModelExp.cbrt_f S a0)))
  | cbrt_vec2 =>
      on S (dV2 S) (fun a0 => on0 S (ret S (eV2 S) (ModelExp.cbrt2 S a0)))
  | cbrt_vec3 =>
      on S (dV3 S) (fun a0 => on0 S (ret S (eV3 S) (ModelExp.cbrt3 S a0)))
  | cbrt_vec4 =>
      on S (dV4 S) (fun a0 => on0 S (ret S (eV4 S) (ModelExp.cbrt4 S a0)))
  | cbrt_quat =>
      on S (dQ S) (fun a0 => on0 S (ret S (eQ S) (ModelExp.cbrt_q S a0)))
  | degreesf_float =>
      on S (dF S) (fun a0 => on0 S (ret S (eF S) (ModelTrig.degreesf S a0)))
  | radiansf_float =>
      on S (dF S) (fun a0 => on0 S (ret S (eF S) (ModelTrig.radiansf S a0)))
  | cos_float =>
      on S (dF S) (fun a0 => on0 S (ret S (eF S) (ModelTrig.cos_f S a0)))
  | cos_vec2 =>
      on S (dV2 S) (fun a0 => on0 S (ret S (eV2 S) (ModelTrig.cos2 S a0)))
  | cos_vec3 =>
      on S (dV3 S) (fun a0 => on0 S (ret S (eV3 S) (ModelTrig.cos3 S a0)))
  | cos_vec4 =>
      on S (dV4 S) (fun a0 => on0 S (ret S (eV4 S) (ModelTrig.cos4 S a0)))
  | sin_float =>
      on S (dF S) (fun a0 => on0 S (ret S (eF S) (ModelTrig.sin_f S a0)))
  | sin_vec2 =>
      on S (dV2 S) (fun a0 => on0 S (ret S (eV2 S) (ModelTrig.sin2 S a0)))
  | sin_vec3 =>
      on S (dV3 S) (fun a0 => on0 S (ret S (eV3 S) (ModelTrig.sin3 S a0)))
  | sin_vec4 =>
      on S (dV4 S) (fun a0 => on0 S (ret S (eV4 S) (ModelTrig.sin4 S a0)))
  | acos_float =>
      on S (dF S) (fun a0 => on0 S (ret S (eF S) (ModelTrig.acos_f S a0)))
  | acos_vec2 =>
      on S (dV2 S) (fun a0 => on0 S (ret S (eV2 S) (ModelTrig.acos2 S a0)))
  | acos_vec3 =>
      on S (dV3 S) (fun a0 => on0 S (ret S (eV3 S) (ModelTrig.acos3 S a0)))
  | acos_vec4 =>
      on S (dV4 S) (fun a0 => on0 S (ret S (eV4 S) (ModelTrig.acos4 S a0)))
  | acosh_float =>
      on S (dF S) (fun a0 => on0 S (ret S (eF S) (ModelTrig.acosh_f S a0)))
  | acosh_vec2 =>
      on S (dV2 S) (fun a0 => on0 S (ret S (eV2 S) (ModelTrig.acosh2 S a0)))
  | acosh_vec3 =>
      on S (dV3 S) (fun a0 => on0 S (ret S (eV3 S) (ModelTrig.acosh3 S a0)))
  | acosh_vec4 =>
      on S (dV4 S) (fun a0 => on0 S (ret S (eV4 S) (ModelTrig.acosh4 S a0)))
  | asin_float =>
      on S (dF S) (fun a0 => on0 S (ret S (eF S) (ModelTrig.asin_f S a0)))
  | asin_vec2 =>
      on S (dV2 S) (fun a0 => on0 S (ret S (eV2 S) (ModelTrig.asin2 S a0)))
  | asin_vec3 =>
      on S (dV3 S) (fun a0 => on0 S (ret S (eV3 S) (ModelTrig.asin3 S a0)))
  | asin_vec4 =>
      on S (dV4 S) (fun a0 => on0 S (ret S (eV4 S) (ModelTrig.asin4 S a0)))
  | asinh_float =>
      on S (dF S) (fun a0 => on0 S (ret S (eF S) (ModelTrig.asinh_f S a0)))
  | asinh_vec2 =>
      on S (dV2 S) (fun a0 => on0 S (ret S (eV2 S) (ModelTrig.asinh2 S a0)))
  | asinh_vec3 =>
      on S (dV3 S) (fun a0 => on0 S (ret S (eV3 S) (ModelTrig.asinh3 S a0)))
  | asinh_vec4 =>
      on S (dV4 S) (fun a0 => on0 S (ret S (eV4 S) (ModelTrig.asinh4 S a0)))
  | atan_float_float =>
      on S (dF S) (fun a0 => on S (dF S) (fun a1 => on0 S (ret S (eF S) (ModelTrig.atan2_f S a0 a1))))
  | atan_vec2_vec2 =>
      on S (dV2 S) (fun a0 => on S (dV2 S) (fun a1 => on0 S (ret S (eV2 S) (ModelTrig.atan2_2 S a0 a1))))
  | atan_vec3_vec3 =>
      on S (dV3 S) (fun a0 => on S (dV3 S) (fun a1 => on0 S (ret S (eV3 S) (ModelTrig.atan2_3 S a0 a1))))
  | atan_vec4_vec4 =>
      on S (dV4 S) (fun a0 => on S (dV4 S) (fun a1 => on0 S (ret S (eV4 S) (ModelTrig.atan2_4 S a0 a1))))
  | atan_float =>
      on S (dF S) (fun a0 => on0 S (ret S (eF S) (ModelTrig.atan_f S a0)))
  | atan_vec2 =>
      on S (dV2 S) (fun a0 => on0 S (ret S (eV2 S) (ModelTrig.atan2 S a0)))
  | atan_vec3 =>
      on S (dV3 S) (fun a0 => on0 S (ret S (eV3 S) (ModelTrig.atan3 S a0)))
  | atan_vec4 =>
      on S (dV4 S) (fun a0 => on0 S (ret S (eV4 S) (ModelTrig.atan4 S a0)))
  | atanh_float =>
      on S (dF S) (fun a0 => on0 S (ret S (eF S) (ModelTrig.atanh_f S a0)))
  | atanh_vec2 =>
      on S (dV2 S) (fun a0 => on0 S (ret S (eV2 S) (ModelTrig.atanh2 S a0)))
  | atanh_vec3 =>
      on S (dV3 S) (fun a0 => on0 S (ret S (eV3 S) (ModelTrig.atanh3 S a0)))
  | atanh_vec4 =>
      on S (dV4 S) (fun a0 => on0 S (ret S (eV4 S) (ModelTrig.atanh4 S a0)))
  | cosh_float =>
      on S (dF S) (fun a0 => on0 S (ret S (eF S) (ModelTrig.cosh_f S a0)))
  | cosh_vec2 =>
      on S (dV2 S) (fun a0 => on0 S (ret S (eV2 S) (ModelTrig.cosh2 S a0)))
  | cosh_vec3 =>
      on S (dV3 S) (fun a0 => on0 S (ret S (eV3 S) (ModelTrig.cosh3 S a0)))
  | cosh_vec4 =>
      on S (dV4 S) (fun a0 => on0 S (ret S (eV4 S) (ModelTrig.cosh4 S a0)))
  | degrees_float =>
      on S (dF S) (fun a0 => on0 S (ret S (eF S) (ModelTrig.degrees_f S a0)))
  | degrees_vec2 =>
      on S (dV2 S) (fun a0 => on0 S (ret S (eV2 S) (ModelTrig.degrees2 S a0)))
  | degrees_vec3 =>
      on S (dV3 S) (fun a0 => on0 S (ret S (eV3 S) (ModelTrig.degrees3 S a0)))
  | degrees_vec4 =>
      on S (dV4 S) (fun a0 => on0 S (ret S (eV4 S) (ModelTrig.degrees4 S a0)))
  | radians_float =>
      on S (dF S) (fun a0 => on0 S (ret S (eF S) (ModelTrig.radians_f S a0)))
  | radians_vec2 =>
      on S (dV2 S) (fun a0 => on0 S (ret S (eV2 S) (ModelTrig.radians2 S a0)))
  | radians_vec3 =>
      on S (dV3 S) (fun a0 => on0 S (ret S (eV3 S) (ModelTrig.radians3 S a0)))
  | radians_vec4 =>
      on S (dV4 S) (fun a0 => on0 S (ret S (eV4 S) (ModelTrig.radians4 S a0)))
  | sinh_float =>
      on S (dF S) (fun a0 => on0 S (ret S (eF S) (ModelTrig.sinh_f S a0)))
  | sinh_vec2 =>
      on S (dV2 S) (fun a0 => on0 S (ret S (eV2 S) (ModelTrig.sinh2 S a0)))
  | sinh_vec3 =>
      on S (dV3 S) (fun a0 => on0 S (ret S (eV3 S) (ModelTrig.sinh3 S a0)))
  | sinh_vec4 =>
      on S (dV4 S) (fun a0 => on0 S (ret S (eV4 S) (ModelTrig.sinh4 S a0)))
  | tan_float =>
      on S (dF S) (fun a0 => on0 S (ret S (eF S) (ModelTrig.tan_f S a0)))
  | tan_vec2 =>
      on S (dV2 S) (fun a0 => on0 S (ret S (eV2 S) (ModelTrig.tan2 S a0)))
  | tan_vec3 =>
      on S (dV3 S) (fun a0 => on0 S (ret S (eV3 S) (ModelTrig.tan3 S a0)))
  | tan_vec4 =>
      on S (dV4 S) (fun a0 => on0 S (ret S (eV4 S) (ModelTrig.tan4 S a0)))
  | tanh_float =>
      on S (dF S) (fun a0 => on0 S (ret S (eF S) (ModelTrig.tanh_f S a0)))
  | tanh_vec2 =>
      on S (dV2 S) (fun a0 => on0 S (ret S (eV2 S) (ModelTrig.tanh2 S a0)))
  | tanh_vec3 =>
      on S (dV3 S) (fun a0 => on0 S (ret S (eV3 S) (ModelTrig.tanh3 S a0)))
  | tanh_vec4 =>
      on S (dV4 S) (fun a0 => on0 S (ret S (eV4 S) (ModelTrig.tanh4 S a0)))
  | compAdd_vec2 =>
      on S (dV2 S) (fun a0 => on0 S (ret S (eF S) (ModelComp.compAdd2 S a0)))
  | compAdd_vec3 =>
      on S (dV3 S) (fun a0 => on0 S (ret S (eF S) (ModelComp.compAdd3 S a0)))
  | compAdd_vec4 =>
      on S (dV4 S) (fun a0 => on0 S (ret S (eF S) (ModelComp.compAdd4 S a0)))
  | compAdd_ivec2 =>
      on S (dI2 S) (fun a0 => on0 S (lift S (ret S (eI S)) (ModelComp.icompAdd2 a0)))
  | compAdd_ivec3 =>
      on S (dI3 S) (fun a0 => on0 S (lift S (ret S (eI S)) (ModelComp.icompAdd3 a0)))
  | compAdd_ivec4 =>
      on S (dI4 S) (fun a0 => on0 S (lift S (ret S (eI S)) (ModelComp.icompAdd4 a0)))
  | compMul_vec2 =>
      on S (dV2 S) (fun a0 => on0 S (ret S (eF S) (ModelComp.compMul2 S a0)))
  | compMul_vec3 =>
      on S (dV3 S) (fun a0 => on0 S (ret S (eF S) (ModelComp.compMul3 S a0)))
  | compMul_vec4 =>
      on S (dV4 S) (fun a0 => on0 S (ret S (eF S) (ModelComp.compMul4 S a0)))
  | compMul_ivec2 =>
      on S (dI2 S) (fun a0 => on0 S (lift S (ret S (eI S)) (ModelComp.icompMul2 a0)))
  | compMul_ivec3 =>
      on S (dI3 S) (fun a0 => on0 S (lift S (ret S (eI S)) (ModelComp.icompMul3 a0)))
  | compMul_ivec4 =>
      on S (dI4 S) (fun a0 => on0 S (lift S (ret S (eI S)) (ModelComp.icompMul4 a0)))
  | compMin_vec2 =>
      on S (dV2 S) (fun a0 => on0 S (ret S (eF S) (ModelComp.compMin2 S a0)))
  | compMin_vec3 =>
      on S (dV3 S) (fun a0 => on0 S (ret S (eF S) (ModelComp.compMin3 S a0)))
  | compMin_vec4 =>
      on S (dV4 S) (fun a0 => on0 S (ret S (eF S) (ModelComp.compMin4 S a0)))
  | compMin_ivec2 =>
      on S (dI2 S) (fun a0 => on0 S (ret S (eI S) (ModelComp.icompMin2 a0)))
  | compMin_ivec3 =>
      on S (dI3 S) (fun a0 => on0 S (ret S (eI S) (ModelComp.icompMin3 a0)))
  | compMin_ivec4 =>
      on S (dI4 S) (fun a0 => on0 S (ret S (eI S) (ModelComp.icompMin4 a0)))
  | compMax_vec2 =>
      on S (dV2 S) (fun a0 => on0 S (ret S (eF S) (ModelComp.compMax2 S a0)))
  | compMax_vec3 =>
      on S (dV3 S) (fun a0 => on0 S (ret S (eF S) (ModelComp.compMax3 S a0)))
  | compMax_vec4 =>
      on S (dV4 S) (fun a0 => on0 S (ret S (eF S) (ModelComp.compMax4 S a0)))
  | compMax_ivec2 =>
      on S (dI2 S) (fun a0 => on0 S (ret S (eI S) (ModelComp.icompMax2 a0)))
  | compMax_ivec3 =>
      on S (dI3 S) (fun a0 => on0 S (ret S (eI S) (ModelComp.icompMax3 a0)))
  | compMax_ivec4 =>
      on S (dI4 S) (fun a0 => on0 S (ret S (eI S) (ModelComp.icompMax4 a0)))
  | epsilon =>
      on0 S (ret S (eF S) (ModelConst.c_epsilon S))
  | zero =>
      on0 S (ret S (eF S) (ModelConst.c_zero S))
  | one =>
      on0 S (ret S (eF S) (ModelConst.c_one S))
  | pi =>
      on0 S (ret S (eF S) (ModelConst.c_pi S))
  | two_pi =>
      on0 S (ret S (eF S) (ModelConst.c_two_pi S))
  | root_pi =>
      on0 S (ret S (eF S) (ModelConst.c_root_pi S))
  | half_pi =>
      on0 S (ret S (eF S) (ModelConst.c_half_pi S))
  | three_over_two_pi =>
      on0 S (ret S (eF S) (ModelConst.c_three_over_two_pi S))
  | quarter_pi =>
      on0 S (ret S (eF S) (ModelConst.c_quarter_pi S))
  | one_over_pi =>
      on0 S (ret S (eF S) (ModelConst.c_one_over_pi S))
  | one_over_two_pi =>
      on0 S (ret S (eF S) (ModelConst.c_one_over_two_pi S))
  | two_over_pi =>
      on0 S (ret S (eF S) (ModelConst.c_two_over_pi S))
  | four_over_pi =>
      on0 S (ret S (eF S) (ModelConst.c_four_over_pi S))
  | two_over_root_pi =>
      on0 S (ret S (eF S) (ModelConst.c_two_over_root_pi S))
  | one_over_root_two =>
      on0 S (ret S (eF S) (ModelConst.c_one_over_root_two S))
  | root_half_pi =>
      on0 S (ret S (eF S) (ModelConst.c_root_half_pi S))
  | root_two_pi =>
      on0 S (ret S (eF S) (ModelConst.c_root_two_pi S))
  | root_ln_four =>
      on0 S (ret S (eF S) (ModelConst.c_root_ln_four S))
  | e =>
      on0 S (ret S (eF S) (ModelConst.c_e S))
  | euler =>
      on0 S (ret S (eF S) (ModelConst.c_euler S))
  | root_two =>
      on0 S (ret S (eF S) (ModelConst.c_root_two S))
  | root_three =>
      on0 S (ret S (eF S) (ModelConst.c_root_three S))
  | root_five =>
      on0 S (ret S (eF S) (ModelConst.c_root_five S))
  | ln_two =>
      on0 S (ret S (eF S) (ModelConst.c_ln_two S))
  | ln_ten =>
      on0 S (ret S (eF S) (ModelConst.c_ln_ten S))
  | ln_ln_two =>
      on0 S (ret S (eF S) (ModelConst.c_ln_ln_two S))
  | third =>
      on0 S (ret S (eF S) (ModelConst.c_third S))
  | two_thirds =>
      on0 S (ret S (eF S) (ModelConst.c_two_thirds S))
  | golden_ratio =>
      on0 S (ret S (eF S) (ModelConst.c_golden_ratio S))
  | convertLinearToSRGB_vec4_float =>
      on S (dV4 S) (fun a0 => on S (dF S) (fun a1 => on0 S (ret S (eV4 S) (ModelColor.linearToSRGB4_g S a0 a1))))
  | convertLinearToSRGB_vec3_float =>
      on S (dV3 S) (fun a0 => on S (dF S) (fun a1 => on0 S (ret S (eV3 S) (ModelColor.linearToSRGB3_g S a0 a1))))
  | convertLinearToSRGB_vec3 =>
      on S (dV3 S) (fun a0 => on0 S (ret S (eV3 S) (ModelColor.linearToSRGB3 S a0)))
  | convertLinearToSRGB_vec4 =>
      on S (dV4 S) (fun a0 => on0 S (ret S (eV4 S) (ModelColor.linearToSRGB4 S a0)))
  | convertSRGBToLinear_vec3_float =>
      on S (dV3 S) (fun a0 => on S (dF S) (fun a1 => on0 S (ret S (eV3 S) (ModelColor.sRGBToLinear3_g S a0 a1))))
  | convertSRGBToLinear_vec4_float =>
      on S (dV4 S) (fun a0 => on S (dF S) (fun a1 => on0 S (ret S (eV4 S) (ModelColor.sRGBToLinear4_g S a0 a1))))
  | convertSRGBToLinear_vec3 =>
      on S (dV3 S) (fun a0 => on0 S (ret S (eV3 S) (ModelColor.sRGBToLinear3 S a0)))
  | convertSRGBToLinear_vec4 =>
      on S (dV4 S) (fun a0 => on0 S (ret S (eV4 S) (ModelColor.sRGBToLinear4 S a0)))
  | matrixCompMult_mat2_mat2 =>
      on S (dM2 S) (fun a0 => on S (dM2 S) (fun a1 => on0 S (ret S (eM2 S) (ModelMatrix.matrixCompMult2 S a0 a1))))
  | matrixCompMult_mat3_mat3 =>
      on S (dM3 S) (fun a0 => on S (dM3 S) (fun a1 => on0 S (ret S (eM3 S) (ModelMatrix.matrixCompMult3 S a0 a1))))
  | matrixCompMult_mat4_mat4 =>
      on S (dM4 S) (fun a0 => on S (dM4 S) (fun a1 => on0 S (ret S (eM4 S) (ModelMatrix.matrixCompMult4 S a0 a1))))
  | transpose_mat2 =>
      on S (dM2 S) (fun a0 => on0 S (ret S (eM2 S) (ModelMatrix.transpose2 S a0)))
  | transpose_mat3 =>
      on S (dM3 S) (fun a0 => on0 S (ret S (eM3 S) (ModelMatrix.transpose3 S a0)))
  | transpose_mat4 =>
      on S (dM4 S) (fun a0 => on0 S (ret S (eM4 S) (ModelMatrix.transpose4 S a0)))
  | determinant_mat2 =>
      on S (dM2 S) (fun a0 => on0 S (ret S (eF S) (ModelMatrix.determinant2 S a0)))
  | determinant_mat3 =>
      on S (dM3 S) (fun a0 => on0 S (ret S (eF S) (ModelMatrix.determinant3 S a0)))
  | determinant_mat4 =>
      on S (dM4 S) (fun a0 => on0 S (ret S (eF S) (ModelMatrix.determinant4 S a0)))
  | inverse_mat2 =>
      on S (dM2 S) (fun a0 => on0 S (ret S (eM2 S) (ModelMatrix.inverse2 S a0)))
  | inverse_mat3 =>
      on S (dM3 S) (fun a0 => on0 S (ret S (eM3 S) (ModelMatrix.inverse3 S a0)))
  | inverse_mat4 =>
      on S (dM4 S) (fun a0 => on0 S (ret S (eM4 S) (ModelMatrix.inverse4 S a0)))
  | adjugate_mat2 =>
      on S (dM2 S) (fun a0 => on0 S (ret S (eM2 S) (ModelMatrix.adjugate2 S a0)))
  | adjugate_mat3 =>
      on S (dM3 S) (fun a0 => on0 S (ret S (eM3 S) (ModelMatrix.adjugate3 S a0)))
  | adjugate_mat4 =>
      on S (dM4 S) (fun a0 => on0 S (ret S (eM4 S) (ModelMatrix.adjugate4 S a0)))
  | inverseTranspose_mat2 =>
      on S (dM2 S) (fun a0 => on0 S (ret S (eM2 S) (ModelMatrix.inverseTranspose2 S a0)))
  | inverseTranspose_mat3 =>
      on S (dM3 S) (fun a0 => on0 S (ret S (eM3 S) (ModelMatrix.inverseTranspose3 S a0)))
  | inverseTranspose_mat4 =>
      on S (dM4 S) (fun a0 => on0 S (ret S (eM4 S) (ModelMatrix.inverseTranspose4 S a0)))
  | adjugateTranspose_mat2 =>
      on S (dM2 S) (fun a0 => on0 S (ret S (eM2 S) (ModelMatrix.adjugateTranspose2 S a0)))
  | adjugateTranspose_mat3 =>
      on S (dM3 S) (fun a0 => on0 S (ret S (eM3 S) (ModelMatrix.adjugateTranspose3 S a0)))
  | adjugateTranspose_mat4 =>
      on S (dM4 S) (fun a0 => on0 S (ret S (eM4 S) (ModelMatrix.adjugateTranspose4 S a0)))
  | translate_mat4_vec3 =>
      on S (dM4 S) (fun a0 => on S (dV3 S) (fun a1 => on0 S (ret S (eM4 S) (ModelTransform.translate S a0 a1))))
  | rotate_mat4_float_vec3 =>
      on S (dM4 S) (fun a0 => on S (dF S) (fun a1 => on S (dV3 S) (fun a2 => on0 S (ret S (eM4 S) (ModelTransform.rotate4 S a0 a1 a2)))))
  | scale_mat4_vec3 =>
      on S (dM4 S) (fun a0 => on S (dV3 S) (fun a1 => on0 S (ret S (eM4 S) (ModelTransform.scale S a0 a1))))
  | lookAtRH_vec3_vec3_vec3 =>
      on S (dV3 S) (fun a0 => on S (dV3 S) (fun a1 => on S (dV3 S) (fun a2 => on0 S (ret S (eM4 S) (ModelTransform.lookAtRH S a0 a1 a2)))))
  | lookAtLH_vec3_vec3_vec3 =>
      on S (dV3 S) (fun a0 => on S (dV3 S) (fun a1 => on S (dV3 S) (fun a2 => on0 S (ret S (eM4 S) (ModelTransform.lookAtLH S a0 a1 a2)))))
  | ortho_float_float_float_float =>
      on S (dF S) (fun a0 => on S (dF S) (fun a1 => on S (dF S) (fun a2 => on S (dF S) (fun a3 => on0 S (ret S (eM4 S) (ModelTransform.ortho S a0 a1 a2 a3))))))
  | orthoLH_ZO_float_float_float_float_float_float =>
      on S (dF S) (fun a0 => on S (dF S) (fun a1 => on S (dF S) (fun a2 => on S (dF S) (fun a3 => on S (dF S) (fun a4 => on S (dF S) (fun a5 => on0 S (ret S (eM4 S) (ModelTransform.orthoLH_ZO S a0 a1 a2 a3 a4 a5))))))))
  | orthoRH_ZO_float_float_float_float_float_float =>
      on S (dF S) (fun a0 => on S (dF S) (fun a1 => on S (dF S) (fun a2 => on S (dF S) (fun a3 => on S (dF S) (fun a4 => on S (dF S) (fun a5 => on0 S (ret S (eM4 S) (ModelTransform.orthoRH_ZO S a0 a1 a2 a3 a4 a5))))))))
  | orthoLH_NO_float_float_float_float_float_float =>
      on S (dF S) (fun a0 => on S (dF S) (fun a1 => on S (dF S) (fun a2 => on S (dF S) (fun a3 => on S (dF S) (fun a4 => on S (dF S) (fun a5 => on0 S (ret S (eM4 S) (ModelTransform.orthoLH_NO S a0 a1 a2 a3 a4 a5))))))))
  | orthoRH_NO_float_float_float_float_float_float =>
      on S (dF S) (fun a0 => on S (dF S) (fun a1 => on S (dF S) (fun a2 => on S (dF S) (fun a3 => on S (dF S) (fun a4 => on S (dF S) (fun a5 => on0 S (ret S (eM4 S) (ModelTransform.orthoRH_NO S a0 a1 a2 a3 a4 a5))))))))
  | perspectiveRH_ZO_float_float_float_float =>
      on S (dF S) (fun a0 => on S (dF S) (fun a1 => on S (dF S) (fun a2 => on S (dF S) (fun a3 => on0 S (lift S (ret S (eM4 S)) (ModelTransform.perspectiveRH_ZO S b a0 a1 a2 a3))))))
  | perspectiveRH_NO_float_float_float_float =>
      on S (dF S) (fun a0 => on S (dF S) (fun a1 => on S (dF S) (fun a2 => on S (dF S) (fun a3 => on0 S (lift S (ret S (eM4 S)) (ModelTransform.perspectiveRH_NO S b a0 a1 a2 a3))))))
  | perspectiveLH_ZO_float_float_float_float =>
      on S (dF S) (fun a0 => on S (dF S) (fun a1 => on S (dF S) (fun a2 => on S (dF S) (fun a3 => on0 S (lift S (ret S (eM4 S)) (ModelTransform.perspectiveLH_ZO S b a0 a1 a2 a3))))))
  | perspectiveLH_NO_float_float_float_float =>
      on S (dF S) (fun a0 => on S (dF S) (fun a1 => on S (dF S) (fun a2 => on S (dF S) (fun a3 => on0 S (lift S (ret S (eM4 S)) (ModelTransform.perspectiveLH_NO S b a0 a1 a2 a3))))))
  | decompose_orthogonal_mat4_vec3_quat_vec3 =>
      on S (dM4 S) (fun m => on S (dV3 S) (fun _ => on S (dQ S) (fun _ => on S (dV3 S) (fun _ => on0 S (
      let '(s, q, t) := ModelTransform.decompose_orthogonal S m in Ret (Void, [eV3 S s; eQ S q; eV3 S t]))))))
  | eulerAngles_quat =>
      on S (dQ S) (fun a0 => on0 S (ret S (eV3 S) (ModelQuaternion.eulerAngles S a0)))
  | pitch_quat =>
      on S (dQ S) (fun a0 => on0 S (ret S (eF S) (ModelQuaternion.pitch S a0)))
  | yaw_quat =>
      on S (dQ S) (fun a0 => on0 S (ret S (eF S) (ModelQuaternion.yaw S a0)))
  | roll_quat =>
      on S (dQ S) (fun a0 => on0 S (ret S (eF S) (ModelQuaternion.roll S a0)))
  | mat3_cast_quat =>
      on S (dQ S) (fun a0 => on0 S (ret S (eM3 S) (ModelQuaternion.mat3_cast S a0)))
  | mat4_cast_quat =>
      on S (dQ S) (fun a0 => on0 S (ret S (eM4 S) (ModelQuaternion.mat4_cast S a0)))
  | quat_cast_mat3 =>
      on S (dM3 S) (fun a0 => on0 S (ret S (eQ S) (ModelQuaternion.quat_cast3 S a0)))
  | quat_cast_mat4 =>
      on S (dM4 S) (fun a0 => on0 S (ret S (eQ S) (ModelQuaternion.quat_cast4 S a0)))
  | quatLookAtLH_vec3_vec3 =>
      on S (dV3 S) (fun a0 => on S (dV3 S) (fun a1 => on0 S (ret S (eQ S) (ModelQuaternion.quatLookAtLH S a0 a1))))
  | quatLookAtRH_vec3_vec3 =>
      on S (dV3 S) (fun a0 => on S (dV3 S) (fun a1 => on0 S (ret S (eQ S) (ModelQuaternion.quatLookAtRH S a0 a1))))
  | conjugate_quat =>
      on S (dQ S) (fun a0 => on0 S (ret S (eQ S) (ModelQuaternion.conjugate S a0)))
  | inverse_quat =>
      on S (dQ S) (fun a0 => on0 S (ret S (eQ S) (ModelQuaternion.inverse_q S a0)))
  | lerp_quat_quat_float =>
      on S (dQ S) (fun a0 => on S (dQ S) (fun a1 => on S (dF S) (fun a2 => on0 S (lift S (ret S (eQ S)) (ModelQuaternion.lerp S b a0 a1 a2)))))
  | nlerp_quat_quat_float =>
      on S (dQ S) (fun a0 => on S (dQ S) (fun a1 => on S (dF S) (fun a2 => on0 S (lift S (ret S (eQ S)) (ModelQuaternion.nlerp S b a0 a1 a2)))))
  | slerp_quat_quat_float =>
      on S (dQ S) (fun a0 => on S (dQ S) (fun a1 => on S (dF S) (fun a2 => on0 S (ret S (eQ S) (ModelQuaternion.slerp S a0 a1 a2)))))
  | axis_quat =>
      on S (dQ S) (fun a0 => on0 S (ret S (eV3 S) (ModelQuaternion.axis S a0)))
  | angle_quat =>
      on S (dQ S) (fun a0 => on0 S (ret S (eF S) (ModelQuaternion.angle S a0)))
  | angleAxis_float_vec3 =>
      on S (dF S) (fun a0 => on S (dV3 S) (fun a1 => on0 S (ret S (eQ S) (ModelQuaternion.angleAxis S a0 a1))))
  | rotate_quat_float_vec3 =>
      on S (dQ S) (fun a0 => on S (dF S) (fun a1 => on S (dV3 S) (fun a2 => on0 S (ret S (eQ S) (ModelQuaternion.rotate_q S a0 a1 a2)))))
  end.
