(** * Properties: the text of hash.cpp and type_ptr.cpp *)

From Coq Require Import ZArith Bool List String.
From Verif Require Import Types Outcome Cpp CppHash CppHashCode ModelHash ModelAccess SpecHashText.
From Verif Require Import PfHashText.
Import ListNotations.
Local Open Scope Z_scope.


(** Every overload of zcm::hash, run from its text with any nesting bound of at least four calls, returns the model's hash.
    Floats are given by their memory images. *)
Theorem C101_hash : forall n : nat, let h v := hrun all_code (4 + n) Nhash v in
  (forall z, h (HVF z) = Ret (HVL (hash_float z))) /\
  (forall b, h (HVB b) = Ret (HVL (hash_bool b))) /\
  (forall z, h (HVI z) = Ret (HVL (hash_int z))) /\
  (forall z, h (HVU z) = Ret (HVL (hash_unsigned z))) /\
  (forall v, h (o2 HVB Cbvec2 v) = Ret (HVL (hash_bvec2 v))) /\
  (forall v, h (o3 HVB Cbvec3 v) = Ret (HVL (hash_bvec3 v))) /\
  (forall v, h (o4 HVB Cbvec4 v) = Ret (HVL (hash_bvec4 v))) /\
  (forall v, h (o2 HVI Civec2 v) = Ret (HVL (hash_ivec2 v))) /\
  (forall v, h (o3 HVI Civec3 v) = Ret (HVL (hash_ivec3 v))) /\
  (forall v, h (o4 HVI Civec4 v) = Ret (HVL (hash_ivec4 v))) /\
  (forall v, h (o2 HVF Cvec2 v) = Ret (HVL (hash_vec2 v))) /\
  (forall v, h (o3 HVF Cvec3 v) = Ret (HVL (hash_vec3 v))) /\
  (forall v, h (o4 HVF Cvec4 v) = Ret (HVL (hash_vec4 v))) /\
  (forall v, h (oq HVF v) = Ret (HVL (hash_quat v))) /\
  (forall m, h (om2 HVF m) = Ret (HVL (hash_mat2 m))) /\
  (forall m, h (om3 HVF m) = Ret (HVL (hash_mat3 m))) /\
  (forall m, h (om4 HVF m) = Ret (HVL (hash_mat4 m))).
Proof. exact C101_hash_pf. Qed.
Print Assumptions C101_hash.

(** The std::hash specialisations return what the corresponding zcm::hash returns. *)
Theorem C101_std : forall (n : nat) (v : hval), (exists c fs, v = HVO c fs) -> hrun all_code (S n) Nstd_hash v = hrun all_code n Nhash v.
Proof. exact C101_std_pf. Qed.
Print Assumptions C101_std.

(** Both value_ptr overloads of every type return the address of the first scalar; the others follow it in the order of the model. *)
Theorem C101_value_ptr : forall (n : nat) (f : hname), f = Nvalue_ptr \/ f = Nconst_value_ptr ->
  let p v := hrun all_code (S n) f v in
  let ptr {A} (k : A -> hval) (o : option (list A)) := Ret (HVP (match o with Some l => map k l | None => [] end)) in
  (forall v, p (o2 HVB Cbvec2 v) = ptr HVB (value_ptr_vec2 v)) /\
  (forall v, p (o3 HVB Cbvec3 v) = ptr HVB (value_ptr_vec3 v)) /\
  (forall v, p (o4 HVB Cbvec4 v) = ptr HVB (value_ptr_vec4 v)) /\
  (forall v, p (o2 HVF Cvec2 v) = ptr HVF (value_ptr_vec2 v)) /\
  (forall v, p (o3 HVF Cvec3 v) = ptr HVF (value_ptr_vec3 v)) /\
  (forall v, p (o4 HVF Cvec4 v) = ptr HVF (value_ptr_vec4 v)) /\
  (forall v, p (oq HVF v) = ptr HVF (value_ptr_quat v)) /\
  (forall m, p (om2 HVF m) = ptr HVF (value_ptr_mat2 m)) /\
  (forall m, p (om3 HVF m) = ptr HVF (value_ptr_mat3 m)) /\
  (forall m, p (om4 HVF m) = ptr HVF (value_ptr_mat4 m)).
Proof. exact C101_value_ptr_pf. Qed.
Print Assumptions C101_value_ptr.

(** the zero of either sign as a float, a column-major 2x2 matrix, and an address *)
Example C101_case : hrun all_code 4 Nhash (HVF 0) = Ret (HVL 18446744069414584320) /\
  hrun all_code 4 Nhash (HVF (2 ^ 31)) <> hrun all_code 4 Nhash (HVF 0) /\
  hrun all_code 1 Nvalue_ptr (om2 HVF (M2 (V2 1 2) (V2 3 4))) = Ret (HVP [HVF 1; HVF 2; HVF 3; HVF 4]).
Proof. repeat split; try reflexivity. vm_compute. discriminate. Qed.
