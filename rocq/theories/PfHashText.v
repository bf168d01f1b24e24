(** * Proofs: the text of hash.cpp and type_ptr.cpp *)
From Coq Require Import ZArith Bool List String.
From Verif Require Import Types Outcome Cpp CppHash CppHashCode ModelHash ModelAccess SpecHashText.
Import ListNotations.
Local Open Scope Z_scope.
(*HEADER END*)
From Coq Require Import Lia.

Lemma mul64_u64 a b : mul64 a b = u64 (a * b). Proof. reflexivity. Qed.
Lemma wrap_u64 a : wrap64 a = u64 a. Proof. reflexivity. Qed.
Lemma shl64_u64 a n : 0 <= n -> shl64 a n = u64_shl a n.
Proof. intros H. unfold shl64, u64_shl. now rewrite Z.shiftl_mul_pow2. Qed.
Lemma not64_u64 a : 0 <= a < 2 ^ 64 -> not64 a = u64_not a.
Proof. intros H. unfold not64, u64_not, wrap64. replace (Z.lnot a) with ((2 ^ 64 - 1 - a) + (-1) * 2 ^ 64) by (unfold Z.lnot; lia). rewrite Z_mod_plus_full. apply Z.mod_small. lia. Qed.
Lemma u64_range a : 0 <= u64 a < 2 ^ 64. Proof. apply Z.mod_pos_bound. reflexivity. Qed.

Ltac go := cbn -[mul64 shl64 not64 wrap64 Z.lor Z.lxor Z.ltb hrun]; change (mul64 4 (wrap64 8)) with 32; change (mul64 4 (wrap64 4)) with 16; change (32 <? 64) with true; change (16 <? 64) with true.
Ltac step := match goal with |- context [hrun ?p (S ?n) ?f ?v] => change (hrun p (S n) f v) with (match hty v with Some t => match resolve p f t with Some d => hexec (hrun p n) [(h_param d, v)] (h_body d) | None => Undefined end | None => Undefined end) end.
Lemma run_u n z : hrun all_code (S n) Nhash (HVU z) = Ret (HVL (hash_unsigned z)).
Proof. step. go. reflexivity. Qed.
Lemma run_i n z : hrun all_code (S n) Nhash (HVI z) = Ret (HVL (hash_int z)).
Proof. step. go. reflexivity. Qed.
Lemma run_b n z : hrun all_code (S n) Nhash (HVB z) = Ret (HVL (hash_bool z)).
Proof. step. go. now destruct z. Qed.
Lemma run_fh n z : hrun all_code (S (S n)) Nfloat_hash (HVF z) = Ret (HVL (float_hash z)).
Proof. step. go. now rewrite run_u. Qed.
Lemma run_f n z : hrun all_code (S (S (S n))) Nhash (HVF z) = Ret (HVL (hash_float z)).
Proof. step. go. rewrite run_fh. go. rewrite not64_u64 by apply u64_range. now rewrite shl64_u64. Qed.
Ltac vec := intros; unfold o2, o3, o4, oq; step; go; repeat (rewrite run_fh || rewrite run_i || rewrite run_b; go); rewrite ?shl64_u64 by (intro; discriminate); reflexivity.
Lemma run_v2 n v : hrun all_code (S (S (S n))) Nhash (o2 HVF Cvec2 v) = Ret (HVL (hash_vec2 v)). Proof. vec. Qed.
Lemma run_v3 n v : hrun all_code (S (S (S n))) Nhash (o3 HVF Cvec3 v) = Ret (HVL (hash_vec3 v)). Proof. vec. Qed.
Lemma run_v4 n v : hrun all_code (S (S (S n))) Nhash (o4 HVF Cvec4 v) = Ret (HVL (hash_vec4 v)). Proof. vec. Qed.
Lemma run_q n v : hrun all_code (S (S (S n))) Nhash (oq HVF v) = Ret (HVL (hash_quat v)). Proof. vec. Qed.
Lemma run_b2 n v : hrun all_code (S (S n)) Nhash (o2 HVB Cbvec2 v) = Ret (HVL (hash_bvec2 v)). Proof. vec. Qed.
Lemma run_b3 n v : hrun all_code (S (S n)) Nhash (o3 HVB Cbvec3 v) = Ret (HVL (hash_bvec3 v)). Proof. vec. Qed.
Lemma run_b4 n v : hrun all_code (S (S n)) Nhash (o4 HVB Cbvec4 v) = Ret (HVL (hash_bvec4 v)). Proof. vec. Qed.
Lemma run_i2 n v : hrun all_code (S (S n)) Nhash (o2 HVI Civec2 v) = Ret (HVL (hash_ivec2 v)). Proof. vec. Qed.
Lemma run_i3 n v : hrun all_code (S (S n)) Nhash (o3 HVI Civec3 v) = Ret (HVL (hash_ivec3 v)). Proof. vec. Qed.
Lemma run_i4 n v : hrun all_code (S (S n)) Nhash (o4 HVI Civec4 v) = Ret (HVL (hash_ivec4 v)). Proof. vec. Qed.
Ltac mat := intros; unfold om2, om3, om4; step; cbn [hty];
  match goal with |- context [resolve all_code ?f ?t] => let r := eval vm_compute in (resolve all_code f t) in change (resolve all_code f t) with r end;
  cbn -[all_code Z.lor Z.lxor Z.ltb hrun o2 o3 o4 col2 col3 col4 Z.to_nat pick];
  change (0 <? 0) with false; change (1 <? 0) with false; change (2 <? 0) with false; change (3 <? 0) with false; cbv iota;
  change (Z.to_nat 0) with 0%nat; change (Z.to_nat 1) with 1%nat; change (Z.to_nat 2) with 2%nat; change (Z.to_nat 3) with 3%nat;
  cbn -[all_code Z.lor Z.lxor hrun o2 o3 o4 col2 col3 col4];
  repeat (rewrite run_v2 || rewrite run_v3 || rewrite run_v4; cbn -[all_code Z.lor Z.lxor hrun o2 o3 o4 col2 col3 col4 hash_vec2 hash_vec3 hash_vec4]); reflexivity.
Lemma run_m2 n v : hrun all_code (S (S (S (S n)))) Nhash (om2 HVF v) = Ret (HVL (hash_mat2 v)). Proof. mat. Qed.
Lemma run_m3 n v : hrun all_code (S (S (S (S n)))) Nhash (om3 HVF v) = Ret (HVL (hash_mat3 v)). Proof. mat. Qed.
Lemma run_m4 n v : hrun all_code (S (S (S (S n)))) Nhash (om4 HVF v) = Ret (HVL (hash_mat4 v)). Proof. mat. Qed.

(** Every overload of zcm::hash, run from its text with any nesting bound of at least four calls, returns the model's hash.
    Floats are given by their memory images. *)
Lemma C101_hash_pf : forall n : nat, let h v := hrun all_code (4 + n) Nhash v in
  (forall z, h (HVF z) = Ret (HVL (hash_float z))) /\
  (forall b, h (HVB b) = Ret (HVL (hash_bool b))) /\
  (forall z, h (HVI z) = Ret (HVL (hash_int z))) /\
  (forall z, h (HVU z) = Ret (HVL (hash_unsigned z))) /\
  (forall v, h (o2 HVB Cbvec2 v) = Ret (HVL (hash_bvec2 v))) /\
  (forall v, h (o3 HVB Cbvec3 v) = Ret (HVL (hash_bvec3 v))) /\
  (forall v, h (o4 HVB Cbvec4 v) = Ret (HVL (hash_bvec4 v))) /\
  (forall v, h (o2 HVI Civec2 v) = Ret (HVL (hash_ivec2 v))) /\
  (forall v, h (o3 HVI Civec3 v) = Ret (HVL (hash_ivec3 v))) /\
  (forall v, h (o4 HVI Civec4 v) = Ret (HVL (hash_ivec4 v))) /\
  (forall v, h (o2 HVF Cvec2 v) = Ret (HVL (hash_vec2 v))) /\
  (forall v, h (o3 HVF Cvec3 v) = Ret (HVL (hash_vec3 v))) /\
  (forall v, h (o4 HVF Cvec4 v) = Ret (HVL (hash_vec4 v))) /\
  (forall v, h (oq HVF v) = Ret (HVL (hash_quat v))) /\
  (forall m, h (om2 HVF m) = Ret (HVL (hash_mat2 m))) /\
  (forall m, h (om3 HVF m) = Ret (HVL (hash_mat3 m))) /\
  (forall m, h (om4 HVF m) = Ret (HVL (hash_mat4 m))).
Proof.
  intros n h. subst h. change (4 + n)%nat with (S (S (S (S n)))). cbv beta.
  split; [exact (run_f (S n))|]. split; [exact (run_b (S (S (S n))))|]. split; [exact (run_i (S (S (S n))))|]. split; [exact (run_u (S (S (S n))))|]. split; [exact (run_b2 (S (S n)))|]. split; [exact (run_b3 (S (S n)))|]. split; [exact (run_b4 (S (S n)))|]. split; [exact (run_i2 (S (S n)))|]. split; [exact (run_i3 (S (S n)))|]. split; [exact (run_i4 (S (S n)))|]. split; [exact (run_v2 (S n))|]. split; [exact (run_v3 (S n))|]. split; [exact (run_v4 (S n))|]. split; [exact (run_q (S n))|]. split; [exact (run_m2 n)|]. split; [exact (run_m3 n)|]. exact (run_m4 n).
Qed.
(** The std::hash specialisations return what the corresponding zcm::hash returns. *)
Lemma C101_std_pf : forall (n : nat) (v : hval), (exists c fs, v = HVO c fs) -> hrun all_code (S n) Nstd_hash v = hrun all_code n Nhash v.
Proof. intros n v (c & fs & ->). step. destruct c; cbn -[hrun]; reflexivity. Qed.
(** Both value_ptr overloads of every type return the address of the first scalar; the others follow it in the order of the model. *)
Lemma C101_value_ptr_pf : forall (n : nat) (f : hname), f = Nvalue_ptr \/ f = Nconst_value_ptr ->
  let p v := hrun all_code (S n) f v in
  let ptr {A} (k : A -> hval) (o : option (list A)) := Ret (HVP (match o with Some l => map k l | None => [] end)) in
  (forall v, p (o2 HVB Cbvec2 v) = ptr HVB (value_ptr_vec2 v)) /\
  (forall v, p (o3 HVB Cbvec3 v) = ptr HVB (value_ptr_vec3 v)) /\
  (forall v, p (o4 HVB Cbvec4 v) = ptr HVB (value_ptr_vec4 v)) /\
  (forall v, p (o2 HVF Cvec2 v) = ptr HVF (value_ptr_vec2 v)) /\
  (forall v, p (o3 HVF Cvec3 v) = ptr HVF (value_ptr_vec3 v)) /\
  (forall v, p (o4 HVF Cvec4 v) = ptr HVF (value_ptr_vec4 v)) /\
  (forall v, p (oq HVF v) = ptr HVF (value_ptr_quat v)) /\
  (forall m, p (om2 HVF m) = ptr HVF (value_ptr_mat2 m)) /\
  (forall m, p (om3 HVF m) = ptr HVF (value_ptr_mat3 m)) /\
  (forall m, p (om4 HVF m) = ptr HVF (value_ptr_mat4 m)).
Proof. intros n f [-> | ->] p ptr; subst p ptr; cbv beta; repeat match goal with |- _ /\ _ => split end; intros; step; reflexivity. Qed.
(*PROPS
(** the zero of either sign as a float, a column-major 2x2 matrix, and an address *)
Example C101_case : hrun all_code 4 Nhash (HVF 0) = Ret (HVL 18446744069414584320) /\
  hrun all_code 4 Nhash (HVF (2 ^ 31)) <> hrun all_code 4 Nhash (HVF 0) /\
  hrun all_code 1 Nvalue_ptr (om2 HVF (M2 (V2 1 2) (V2 3 4))) = Ret (HVP [HVF 1; HVF 2; HVF 3; HVF 4]).
Proof. repeat split; try reflexivity. vm_compute. discriminate. Qed.
PROPS*)
