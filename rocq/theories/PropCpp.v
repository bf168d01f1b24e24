(** * Properties: the source text, executed statement by statement, and the model functions *)

From Coq Require Import ZArith NArith Bool List String Reals Lia.
From Verif Require Import Scalar Outcome Types Int32 RealInst Cpp CppNames CppProgram CppModel SpecCpp.
From Verif Require Import CppTac CppAgree.
From Verif Require ModelTransform.
From Verif Require Import PfCpp.
Import ListNotations.
Local Open Scope string_scope.


(** Every function of the library, run from its source text on arguments of the
    declared types, does what its model does: it returns the same value, leaves
    the same values in its reference parameters, and aborts or is undefined for
    the same arguments.  Any scalar type, both builds. *)
Theorem C86_source_is_model : forall S b f (args : list (val S)), typed_args f args ->
  call_source S b f args = model S b f args.
Proof. exact C86_source_is_model_pf. Qed.
Print Assumptions C86_source_is_model.

(** No function recurses: a bound above [rank] on the depth of calls changes nothing. *)
Theorem C86_calls_terminate : forall S b f (args : list (val S)) n, typed_args f args -> (rank f < n)%nat ->
  run S fn code b n f args = call_source S b f args.
Proof. exact C86_calls_terminate_pf. Qed.
Print Assumptions C86_calls_terminate.

(** A call that returns gives a value of the declared return type and leaves values
    of their declared types in the reference parameters: no component is
    uninitialised, and a returned reference refers to a part of the object. *)
Theorem C86_results_typed : forall S b f (args : list (val S)) r, typed_args f args -> uninitialised f = false ->
  call_source S b f args = Ret r -> result_ok f args r = true.
Proof. exact C86_results_typed_pf. Qed.
Print Assumptions C86_results_typed.

(** Only the functions listed in [can_abort] abort, and only in a debug build. *)
Theorem C86_aborts : forall S b f (args : list (val S)), typed_args f args ->
  call_source S b f args = AssertFail -> can_abort b f = true.
Proof. exact C86_aborts_pf. Qed.
Print Assumptions C86_aborts.

(** Only the functions listed in [can_be_undefined] can be undefined: no other one
    reads an uninitialised component, subscripts out of range or overflows an integer. *)
Theorem C86_undefined : forall S b f (args : list (val S)), typed_args f args ->
  call_source S b f args = Undefined -> can_be_undefined b f = true.
Proof. exact C86_undefined_pf. Qed.
Print Assumptions C86_undefined.

(** [x op= x], with the argument a reference to the object being changed, does what
    it does with a copy of the object. *)
Theorem C86_assign_itself : forall S b f c (this : val S), compound f = Some c -> has_ty (Tcls c) this = true ->
  call_on_itself S b f this = call_source S b f [this; this].
Proof. exact C86_assign_itself_pf. Qed.
Print Assumptions C86_assign_itself.

(** decompose_orthogonal called with one object for the scale and the translation:
    the object ends up holding the scale, and the orientation is the right one. *)
Theorem C86_decompose_shared : forall (S : Scalar) b m (s t : vec3 S) q,
  call_bound S b decompose_orthogonal_mat4_vec3_quat_vec3 [BVal S (eM4 S m); BVal S (eV3 S s); BVal S (eQ S q); BRef S "scale" []] =
  let '(s', q', _) := ModelTransform.decompose_orthogonal S m in Ret (Void, [eV3 S s'; eQ S q'; eV3 S s']).
Proof. exact C86_decompose_shared_pf. Qed.
Print Assumptions C86_decompose_shared.

(** Calls computed from the source text over the real numbers. *)
Example C86_ex_add : forall b, typed_args (S := RS) op_add_vec2_vec2 [eV2 RS (V2 1 2); eV2 RS (V2 3 4)]%R /\
  call_source RS b op_add_vec2_vec2 [eV2 RS (V2 1 2); eV2 RS (V2 3 4)]%R = Ret (eV2 RS (V2 (1 + 3) (2 + 4)), [])%R.
Proof. intros []; split; reflexivity. Qed.
(** dot of two columns, reached through two levels of calls *)
Example C86_ex_length2 : call_source RS Debug length2_vec3 [eV3 RS (V3 1 2 3)]%R = Ret (@VF RS (1 * 1 + 2 * 2 + 3 * 3)%R, [])%R.
Proof. reflexivity. Qed.
(** the object is changed in place *)
Example C86_ex_assign : call_source RS Release vec3__op_mul_assign_float [eV3 RS (V3 1 2 3); @VF RS 5]%R = Ret (Void, [eV3 RS (V3 (1 * 5) (2 * 5) (3 * 5))])%R.
Proof. reflexivity. Qed.
(** the guard of operator[] of a two-dimensional vector lets 2 through and then reads past the end *)
Example C86_ex_index : call_source RS Debug vec2__index_const [eV2 RS (V2 1 2); VU 2%N]%R = Undefined /\
  call_source RS Debug vec2__index_const [eV2 RS (V2 1 2); VU 3%N]%R = AssertFail.
Proof. split; reflexivity. Qed.
Example C86_ex_mat3 : call_source RS Debug mat3__mat2 [eM2 RS (M2 (V2 1 0) (V2 0 1))]%R = AssertFail.
Proof. reflexivity. Qed.
Example C86_ex_overflow : call_source RS Debug op_add_ivec2_int [Obj Civec2 [VI 2147483647; VI 0]; VI 1] = Undefined.
Proof. reflexivity. Qed.
(** q *= q with the argument referring to q *)
Example C86_ex_itself : compound quat__op_mul_assign_quat = Some Cquat /\ compound mat4__op_mul_assign_mat4 = Some Cmat4 /\
  compound vec3__op_add_assign_vec3 = Some Cvec3.
Proof. repeat split. Qed.
(** 649 of the 907 functions can neither abort nor be undefined *)
Example C86_ex_safe : can_be_undefined Debug inverse_mat4 = false /\ can_abort Debug inverse_mat4 = false /\
  can_be_undefined Debug slerp_quat_quat_float = false /\ can_abort Debug slerp_quat_quat_float = false /\
  can_abort Debug lerp_quat_quat_float = true /\ can_be_undefined Debug op_add_ivec2_int = true.
Proof. repeat split. Qed.
