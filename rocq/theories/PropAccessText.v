(** * Properties: the accessor templates as written *)

From Coq Require Import ZArith Bool List String Lia.
From Verif Require Import Scalar Outcome Types Spec Int32 ModelAccess ModelSwizzle CppAccess CppAccessCode SpecAccessText.
From Verif Require Import PfAccessText.
Import ListNotations.
Local Open Scope string_scope.
Local Open Scope scalar_scope.


(** The operators of [scalar_accessor_2<float, index>] as written in vec2_access.hpp do what the
    model's functions do, for every index, vector and argument; the prefix operators return a reference
    to the component. *)
Theorem C103_float2 : forall (S : Scalar) (i : nat) (rd : vec2 S -> S) (v : vec2 S),
  (i < 2)%nat ->
  let run n g := fcall S "scalar_accessor_2" [TTy "float"; TIx i] n g (l2 v) in
  run Nassign (GVal (rd v)) = leaves_elements l2 (Ret (acc2_set i rd v)) /\
  run (Ncompound AoAdd) (GVal (rd v)) = leaves_elements l2 (Ret (acc2_add_assign S i rd v)) /\
  run (Ncompound AoSub) (GVal (rd v)) = leaves_elements l2 (Ret (acc2_sub_assign S i rd v)) /\
  run (Ncompound AoMul) (GVal (rd v)) = leaves_elements l2 (Ret (acc2_mul_assign S i rd v)) /\
  run (Ncompound AoDiv) (GVal (rd v)) = leaves_elements l2 (Ret (acc2_div_assign S i rd v)) /\
  returns_element l2 i (Ret (acc2_preinc S i v)) (run (Ninc false) GNone) /\
  run (Ninc false) GPostfix = returns_value l2 (Ret (acc2_postinc S i v)) /\
  returns_element l2 i (Ret (acc2_predec S i v)) (run (Ninc true) GNone) /\
  run (Ninc true) GPostfix = returns_value l2 (Ret (acc2_postdec S i v)) /\
  run (Nconv "float") GNone = returns_value l2 (Ret (v, acc2_get i v)).
Proof. exact C103_float2_pf. Qed.
Print Assumptions C103_float2.

(** Assigning a component from another vector's component: from the same component, the chosen operator
    is the implicit copy assignment, which copies the whole vector; from a component with another index
    only this component changes.  Compound assignments read the value in either case. *)
Theorem C103_copy2 : forall (S : Scalar) (i j : nat) (v w : vec2 S),
  (i < 2)%nat -> (j < 2)%nat ->
  let acc k := GAcc "scalar_accessor_2" [TTy "float"; TIx k] (l2 w) in
  let run n g := fcall S "scalar_accessor_2" [TTy "float"; TIx i] n g (l2 v) in
  run Nassign (acc i) = leaves_elements l2 (Ret w) /\
  (j <> i -> run Nassign (acc j) = leaves_elements l2 (Ret (acc2_set i (fun _ => el2 w j) v))) /\
  run (Ncompound AoAdd) (acc j) = leaves_elements l2 (Ret (acc2_add_assign S i (fun _ => el2 w j) v)) /\
  run (Ncompound AoSub) (acc j) = leaves_elements l2 (Ret (acc2_sub_assign S i (fun _ => el2 w j) v)) /\
  run (Ncompound AoMul) (acc j) = leaves_elements l2 (Ret (acc2_mul_assign S i (fun _ => el2 w j) v)) /\
  run (Ncompound AoDiv) (acc j) = leaves_elements l2 (Ret (acc2_div_assign S i (fun _ => el2 w j) v)).
Proof. exact C103_copy2_pf. Qed.
Print Assumptions C103_copy2.

(** The operators of [scalar_accessor_2i<int32_t, index>], those of its base class included. *)
Theorem C103_int2 : forall (i : nat) (rd : vec2 Z -> Z) (v : vec2 Z),
  (i < 2)%nat ->
  let run n g := icall "scalar_accessor_2i" [TTy "int32_t"; TIx i] n g (l2 v) in
  run (Ncompound AoAdd) (GVal (rd v)) = leaves_elements l2 (iacc2_add_assign i rd v) /\
  run (Ncompound AoSub) (GVal (rd v)) = leaves_elements l2 (iacc2_sub_assign i rd v) /\
  run (Ncompound AoMul) (GVal (rd v)) = leaves_elements l2 (iacc2_mul_assign i rd v) /\
  run (Ncompound AoDiv) (GVal (rd v)) = leaves_elements l2 (iacc2_div_assign i rd v) /\
  run (Ncompound AoRem) (GVal (rd v)) = leaves_elements l2 (iacc2_rem_assign i rd v) /\
  run (Ncompound AoOr) (GVal (rd v)) = leaves_elements l2 (iacc2_or_assign i rd v) /\
  run (Ncompound AoAnd) (GVal (rd v)) = leaves_elements l2 (iacc2_and_assign i rd v) /\
  run (Ncompound AoXor) (GVal (rd v)) = leaves_elements l2 (iacc2_xor_assign i rd v) /\
  run (Ncompound AoShl) (GVal (rd v)) = leaves_elements l2 (iacc2_shl_assign i rd v) /\
  run (Ncompound AoShr) (GVal (rd v)) = leaves_elements l2 (iacc2_shr_assign i rd v) /\
  returns_element l2 i (iacc2_preinc i v) (run (Ninc false) GNone) /\
  run (Ninc false) GPostfix = returns_value l2 (iacc2_postinc i v) /\
  returns_element l2 i (iacc2_predec i v) (run (Ninc true) GNone) /\
  run (Ninc true) GPostfix = returns_value l2 (iacc2_postdec i v) /\
  run (Nconv "int32_t") GNone = returns_value l2 (Ret (v, acc2_get i v)).
Proof. exact C103_int2_pf. Qed.
Print Assumptions C103_int2.

(** The operators of [scalar_accessor_3<float, index>] as written in vec3_access.hpp do what the
    model's functions do, for every index, vector and argument; the prefix operators return a reference
    to the component. *)
Theorem C103_float3 : forall (S : Scalar) (i : nat) (rd : vec3 S -> S) (v : vec3 S),
  (i < 3)%nat ->
  let run n g := fcall S "scalar_accessor_3" [TTy "float"; TIx i] n g (l3 v) in
  run Nassign (GVal (rd v)) = leaves_elements l3 (Ret (acc3_set i rd v)) /\
  run (Ncompound AoAdd) (GVal (rd v)) = leaves_elements l3 (Ret (acc3_add_assign S i rd v)) /\
  run (Ncompound AoSub) (GVal (rd v)) = leaves_elements l3 (Ret (acc3_sub_assign S i rd v)) /\
  run (Ncompound AoMul) (GVal (rd v)) = leaves_elements l3 (Ret (acc3_mul_assign S i rd v)) /\
  run (Ncompound AoDiv) (GVal (rd v)) = leaves_elements l3 (Ret (acc3_div_assign S i rd v)) /\
  returns_element l3 i (Ret (acc3_preinc S i v)) (run (Ninc false) GNone) /\
  run (Ninc false) GPostfix = returns_value l3 (Ret (acc3_postinc S i v)) /\
  returns_element l3 i (Ret (acc3_predec S i v)) (run (Ninc true) GNone) /\
  run (Ninc true) GPostfix = returns_value l3 (Ret (acc3_postdec S i v)) /\
  run (Nconv "float") GNone = returns_value l3 (Ret (v, acc3_get i v)).
Proof. exact C103_float3_pf. Qed.
Print Assumptions C103_float3.

(** Assigning a component from another vector's component: from the same component, the chosen operator
    is the implicit copy assignment, which copies the whole vector; from a component with another index
    only this component changes.  Compound assignments read the value in either case. *)
Theorem C103_copy3 : forall (S : Scalar) (i j : nat) (v w : vec3 S),
  (i < 3)%nat -> (j < 3)%nat ->
  let acc k := GAcc "scalar_accessor_3" [TTy "float"; TIx k] (l3 w) in
  let run n g := fcall S "scalar_accessor_3" [TTy "float"; TIx i] n g (l3 v) in
  run Nassign (acc i) = leaves_elements l3 (Ret w) /\
  (j <> i -> run Nassign (acc j) = leaves_elements l3 (Ret (acc3_set i (fun _ => el3 w j) v))) /\
  run (Ncompound AoAdd) (acc j) = leaves_elements l3 (Ret (acc3_add_assign S i (fun _ => el3 w j) v)) /\
  run (Ncompound AoSub) (acc j) = leaves_elements l3 (Ret (acc3_sub_assign S i (fun _ => el3 w j) v)) /\
  run (Ncompound AoMul) (acc j) = leaves_elements l3 (Ret (acc3_mul_assign S i (fun _ => el3 w j) v)) /\
  run (Ncompound AoDiv) (acc j) = leaves_elements l3 (Ret (acc3_div_assign S i (fun _ => el3 w j) v)).
Proof. exact C103_copy3_pf. Qed.
Print Assumptions C103_copy3.

(** The operators of [scalar_accessor_3i<int32_t, index>], those of its base class included. *)
Theorem C103_int3 : forall (i : nat) (rd : vec3 Z -> Z) (v : vec3 Z),
  (i < 3)%nat ->
  let run n g := icall "scalar_accessor_3i" [TTy "int32_t"; TIx i] n g (l3 v) in
  run (Ncompound AoAdd) (GVal (rd v)) = leaves_elements l3 (iacc3_add_assign i rd v) /\
  run (Ncompound AoSub) (GVal (rd v)) = leaves_elements l3 (iacc3_sub_assign i rd v) /\
  run (Ncompound AoMul) (GVal (rd v)) = leaves_elements l3 (iacc3_mul_assign i rd v) /\
  run (Ncompound AoDiv) (GVal (rd v)) = leaves_elements l3 (iacc3_div_assign i rd v) /\
  run (Ncompound AoRem) (GVal (rd v)) = leaves_elements l3 (iacc3_rem_assign i rd v) /\
  run (Ncompound AoOr) (GVal (rd v)) = leaves_elements l3 (iacc3_or_assign i rd v) /\
  run (Ncompound AoAnd) (GVal (rd v)) = leaves_elements l3 (iacc3_and_assign i rd v) /\
  run (Ncompound AoXor) (GVal (rd v)) = leaves_elements l3 (iacc3_xor_assign i rd v) /\
  run (Ncompound AoShl) (GVal (rd v)) = leaves_elements l3 (iacc3_shl_assign i rd v) /\
  run (Ncompound AoShr) (GVal (rd v)) = leaves_elements l3 (iacc3_shr_assign i rd v) /\
  returns_element l3 i (iacc3_preinc i v) (run (Ninc false) GNone) /\
  run (Ninc false) GPostfix = returns_value l3 (iacc3_postinc i v) /\
  returns_element l3 i (iacc3_predec i v) (run (Ninc true) GNone) /\
  run (Ninc true) GPostfix = returns_value l3 (iacc3_postdec i v) /\
  run (Nconv "int32_t") GNone = returns_value l3 (Ret (v, acc3_get i v)).
Proof. exact C103_int3_pf. Qed.
Print Assumptions C103_int3.

(** The operators of [scalar_accessor_4<float, index>] as written in vec4_access.hpp do what the
    model's functions do, for every index, vector and argument; the prefix operators return a reference
    to the component. *)
Theorem C103_float4 : forall (S : Scalar) (i : nat) (rd : vec4 S -> S) (v : vec4 S),
  (i < 4)%nat ->
  let run n g := fcall S "scalar_accessor_4" [TTy "float"; TIx i] n g (l4 v) in
  run Nassign (GVal (rd v)) = leaves_elements l4 (Ret (acc4_set i rd v)) /\
  run (Ncompound AoAdd) (GVal (rd v)) = leaves_elements l4 (Ret (acc4_add_assign S i rd v)) /\
  run (Ncompound AoSub) (GVal (rd v)) = leaves_elements l4 (Ret (acc4_sub_assign S i rd v)) /\
  run (Ncompound AoMul) (GVal (rd v)) = leaves_elements l4 (Ret (acc4_mul_assign S i rd v)) /\
  run (Ncompound AoDiv) (GVal (rd v)) = leaves_elements l4 (Ret (acc4_div_assign S i rd v)) /\
  returns_element l4 i (Ret (acc4_preinc S i v)) (run (Ninc false) GNone) /\
  run (Ninc false) GPostfix = returns_value l4 (Ret (acc4_postinc S i v)) /\
  returns_element l4 i (Ret (acc4_predec S i v)) (run (Ninc true) GNone) /\
  run (Ninc true) GPostfix = returns_value l4 (Ret (acc4_postdec S i v)) /\
  run (Nconv "float") GNone = returns_value l4 (Ret (v, acc4_get i v)).
Proof. exact C103_float4_pf. Qed.
Print Assumptions C103_float4.

(** Assigning a component from another vector's component: from the same component, the chosen operator
    is the implicit copy assignment, which copies the whole vector; from a component with another index
    only this component changes.  Compound assignments read the value in either case. *)
Theorem C103_copy4 : forall (S : Scalar) (i j : nat) (v w : vec4 S),
  (i < 4)%nat -> (j < 4)%nat ->
  let acc k := GAcc "scalar_accessor_4" [TTy "float"; TIx k] (l4 w) in
  let run n g := fcall S "scalar_accessor_4" [TTy "float"; TIx i] n g (l4 v) in
  run Nassign (acc i) = leaves_elements l4 (Ret w) /\
  (j <> i -> run Nassign (acc j) = leaves_elements l4 (Ret (acc4_set i (fun _ => el4 w j) v))) /\
  run (Ncompound AoAdd) (acc j) = leaves_elements l4 (Ret (acc4_add_assign S i (fun _ => el4 w j) v)) /\
  run (Ncompound AoSub) (acc j) = leaves_elements l4 (Ret (acc4_sub_assign S i (fun _ => el4 w j) v)) /\
  run (Ncompound AoMul) (acc j) = leaves_elements l4 (Ret (acc4_mul_assign S i (fun _ => el4 w j) v)) /\
  run (Ncompound AoDiv) (acc j) = leaves_elements l4 (Ret (acc4_div_assign S i (fun _ => el4 w j) v)).
Proof. exact C103_copy4_pf. Qed.
Print Assumptions C103_copy4.

(** The operators of [scalar_accessor_4i<int32_t, index>], those of its base class included. *)
Theorem C103_int4 : forall (i : nat) (rd : vec4 Z -> Z) (v : vec4 Z),
  (i < 4)%nat ->
  let run n g := icall "scalar_accessor_4i" [TTy "int32_t"; TIx i] n g (l4 v) in
  run (Ncompound AoAdd) (GVal (rd v)) = leaves_elements l4 (iacc4_add_assign i rd v) /\
  run (Ncompound AoSub) (GVal (rd v)) = leaves_elements l4 (iacc4_sub_assign i rd v) /\
  run (Ncompound AoMul) (GVal (rd v)) = leaves_elements l4 (iacc4_mul_assign i rd v) /\
  run (Ncompound AoDiv) (GVal (rd v)) = leaves_elements l4 (iacc4_div_assign i rd v) /\
  run (Ncompound AoRem) (GVal (rd v)) = leaves_elements l4 (iacc4_rem_assign i rd v) /\
  run (Ncompound AoOr) (GVal (rd v)) = leaves_elements l4 (iacc4_or_assign i rd v) /\
  run (Ncompound AoAnd) (GVal (rd v)) = leaves_elements l4 (iacc4_and_assign i rd v) /\
  run (Ncompound AoXor) (GVal (rd v)) = leaves_elements l4 (iacc4_xor_assign i rd v) /\
  run (Ncompound AoShl) (GVal (rd v)) = leaves_elements l4 (iacc4_shl_assign i rd v) /\
  run (Ncompound AoShr) (GVal (rd v)) = leaves_elements l4 (iacc4_shr_assign i rd v) /\
  returns_element l4 i (iacc4_preinc i v) (run (Ninc false) GNone) /\
  run (Ninc false) GPostfix = returns_value l4 (iacc4_postinc i v) /\
  returns_element l4 i (iacc4_predec i v) (run (Ninc true) GNone) /\
  run (Ninc true) GPostfix = returns_value l4 (iacc4_postdec i v) /\
  run (Nconv "int32_t") GNone = returns_value l4 (Ret (v, acc4_get i v)).
Proof. exact C103_int4_pf. Qed.
Print Assumptions C103_int4.

(** [v.x = n] is rejected for the integer vectors: the copy assignment operator that every class has hides
    operator=(T) of the base class.  Of the assignments between components only the one from the same
    component compiles, and it copies the whole vector. *)
Theorem C103_int_assignment_refuted : forall (i j : nat) (n : Z) (v2 w2 : vec2 Z) (v3 w3 : vec3 Z) (v4 w4 : vec4 Z),
  ((i < 2)%nat -> (j < 2)%nat ->
   let acc k := GAcc "scalar_accessor_2i" [TTy "int32_t"; TIx k] (l2 w2) in
   let run g := icall "scalar_accessor_2i" [TTy "int32_t"; TIx i] Nassign g (l2 v2) in
   run (GVal n) = None /\ (j <> i -> run (acc j) = None) /\ run (acc i) = leaves_elements l2 (Ret w2)) /\
  ((i < 3)%nat -> (j < 3)%nat ->
   let acc k := GAcc "scalar_accessor_3i" [TTy "int32_t"; TIx k] (l3 w3) in
   let run g := icall "scalar_accessor_3i" [TTy "int32_t"; TIx i] Nassign g (l3 v3) in
   run (GVal n) = None /\ (j <> i -> run (acc j) = None) /\ run (acc i) = leaves_elements l3 (Ret w3)) /\
  ((i < 4)%nat -> (j < 4)%nat ->
   let acc k := GAcc "scalar_accessor_4i" [TTy "int32_t"; TIx k] (l4 w4) in
   let run g := icall "scalar_accessor_4i" [TTy "int32_t"; TIx i] Nassign g (l4 v4) in
   run (GVal n) = None /\ (j <> i -> run (acc j) = None) /\ run (acc i) = leaves_elements l4 (Ret w4)).
Proof. exact C103_int_assignment_refuted_pf. Qed.
Print Assumptions C103_int_assignment_refuted.

(** A swizzle [v.name] as written: the conversion yields an object of the class it names, whose elements
    are those at the indices, for lists of indices of every length; every other use is rejected, except
    the assignment from the same swizzle of another vector, which copies the whole vector. *)
Theorem C103_shuffle : forall (S : Scalar) (d : decl) (t : string),
  (Forall (fun i => i < 2)%nat (d_indices d) -> forall v w : vec2 S,
   let c := "shuffle_accessor_2" in let l := TTy "float" :: TTy t :: map TIx (d_indices d) in
   fcall S c l (Nconv t) GNone (l2 v) = cret (l2 v, RObj t (shuffle2 d v)) /\
   fcall S c l Nassign (GAcc c l (l2 w)) (l2 v) = leaves_elements l2 (Ret w) /\
   (forall a, fcall S c l Nassign (GVal a) (l2 v) = None)) /\
  (Forall (fun i => i < 3)%nat (d_indices d) -> forall v w : vec3 S,
   let c := "shuffle_accessor_3" in let l := TTy "float" :: TTy t :: map TIx (d_indices d) in
   fcall S c l (Nconv t) GNone (l3 v) = cret (l3 v, RObj t (shuffle3 d v)) /\
   fcall S c l Nassign (GAcc c l (l3 w)) (l3 v) = leaves_elements l3 (Ret w) /\
   (forall a, fcall S c l Nassign (GVal a) (l3 v) = None)) /\
  (Forall (fun i => i < 4)%nat (d_indices d) -> forall v w : vec4 S,
   let c := "shuffle_accessor_4" in let l := TTy "float" :: TTy t :: map TIx (d_indices d) in
   fcall S c l (Nconv t) GNone (l4 v) = cret (l4 v, RObj t (shuffle4 d v)) /\
   fcall S c l Nassign (GAcc c l (l4 w)) (l4 v) = leaves_elements l4 (Ret w) /\
   (forall a, fcall S c l Nassign (GVal a) (l4 v) = None)) /\
  (Forall (fun i => i < 2)%nat (d_indices d) -> forall v w : vec2 Z,
   let c := "shuffle_accessor_2" in let l := TTy "int32_t" :: TTy t :: map TIx (d_indices d) in
   icall c l (Nconv t) GNone (l2 v) = cret (l2 v, RObj t (shuffle2 d v)) /\
   icall c l Nassign (GAcc c l (l2 w)) (l2 v) = leaves_elements l2 (Ret w) /\
   (forall a, icall c l Nassign (GVal a) (l2 v) = None)) /\
  (Forall (fun i => i < 3)%nat (d_indices d) -> forall v w : vec3 Z,
   let c := "shuffle_accessor_3" in let l := TTy "int32_t" :: TTy t :: map TIx (d_indices d) in
   icall c l (Nconv t) GNone (l3 v) = cret (l3 v, RObj t (shuffle3 d v)) /\
   icall c l Nassign (GAcc c l (l3 w)) (l3 v) = leaves_elements l3 (Ret w) /\
   (forall a, icall c l Nassign (GVal a) (l3 v) = None)) /\
  (Forall (fun i => i < 4)%nat (d_indices d) -> forall v w : vec4 Z,
   let c := "shuffle_accessor_4" in let l := TTy "int32_t" :: TTy t :: map TIx (d_indices d) in
   icall c l (Nconv t) GNone (l4 v) = cret (l4 v, RObj t (shuffle4 d v)) /\
   icall c l Nassign (GAcc c l (l4 w)) (l4 v) = leaves_elements l4 (Ret w) /\
   (forall a, icall c l Nassign (GVal a) (l4 v) = None)).
Proof. exact C103_shuffle_pf. Qed.
Print Assumptions C103_shuffle.

(** The members of the vecN types by name, as declared in their headers: the names of the table of the
    model's scalar members denote the scalar accessor of that component, those of its swizzle table read
    the elements of the table in an object of the class with that many elements, and no other name is
    declared. *)
Theorem C103_names_vec : forall (S : Scalar) (x : string),
  ((forall d, lookup vec2_scalars x = Some d -> exists i, d_indices d = [i] /\ (i < 2)%nat /\
      forall n g s, fuse S vec2_union x n g s = fcall S "scalar_accessor_2" [TTy "float"; TIx i] n g s) /\
   (forall d, lookup vec2_shuffles x = Some d -> forall v : vec2 S, List.length (d_indices d) = d_result d /\
      fuse S vec2_union x (Nconv (fvec (d_result d))) GNone (l2 v) = cret (l2 v, RObj (fvec (d_result d)) (shuffle2 d v))) /\
   (lookup vec2_scalars x = None -> lookup vec2_shuffles x = None -> forall n g s, fuse S vec2_union x n g s = None)) /\
  ((forall d, lookup vec3_scalars x = Some d -> exists i, d_indices d = [i] /\ (i < 3)%nat /\
      forall n g s, fuse S vec3_union x n g s = fcall S "scalar_accessor_3" [TTy "float"; TIx i] n g s) /\
   (forall d, lookup vec3_shuffles x = Some d -> forall v : vec3 S, List.length (d_indices d) = d_result d /\
      fuse S vec3_union x (Nconv (fvec (d_result d))) GNone (l3 v) = cret (l3 v, RObj (fvec (d_result d)) (shuffle3 d v))) /\
   (lookup vec3_scalars x = None -> lookup vec3_shuffles x = None -> forall n g s, fuse S vec3_union x n g s = None)) /\
  ((forall d, lookup vec4_scalars x = Some d -> exists i, d_indices d = [i] /\ (i < 4)%nat /\
      forall n g s, fuse S vec4_union x n g s = fcall S "scalar_accessor_4" [TTy "float"; TIx i] n g s) /\
   (forall d, lookup vec4_shuffles x = Some d -> forall v : vec4 S, List.length (d_indices d) = d_result d /\
      fuse S vec4_union x (Nconv (fvec (d_result d))) GNone (l4 v) = cret (l4 v, RObj (fvec (d_result d)) (shuffle4 d v))) /\
   (lookup vec4_scalars x = None -> lookup vec4_shuffles x = None -> forall n g s, fuse S vec4_union x n g s = None)).
Proof. exact C103_names_vec_pf. Qed.
Print Assumptions C103_names_vec.

(** The members of the ivecN types by name, as declared in their headers: the names of the table of the
    model's scalar members denote the scalar accessor of that component, those of its swizzle table read
    the elements of the table in an object of the class with that many elements, and no other name is
    declared. *)
Theorem C103_names_ivec : forall (x : string),
  ((forall d, lookup ivec2_scalars x = Some d -> exists i, d_indices d = [i] /\ (i < 2)%nat /\
      forall n g s, iuse ivec2_union x n g s = icall "scalar_accessor_2i" [TTy "int32_t"; TIx i] n g s) /\
   (forall d, lookup ivec2_shuffles x = Some d -> forall v : vec2 Z, List.length (d_indices d) = d_result d /\
      iuse ivec2_union x (Nconv (ivec (d_result d))) GNone (l2 v) = cret (l2 v, RObj (ivec (d_result d)) (shuffle2 d v))) /\
   (lookup ivec2_scalars x = None -> lookup ivec2_shuffles x = None -> forall n g s, iuse ivec2_union x n g s = None)) /\
  ((forall d, lookup ivec3_scalars x = Some d -> exists i, d_indices d = [i] /\ (i < 3)%nat /\
      forall n g s, iuse ivec3_union x n g s = icall "scalar_accessor_3i" [TTy "int32_t"; TIx i] n g s) /\
   (forall d, lookup ivec3_shuffles x = Some d -> forall v : vec3 Z, List.length (d_indices d) = d_result d /\
      iuse ivec3_union x (Nconv (ivec (d_result d))) GNone (l3 v) = cret (l3 v, RObj (ivec (d_result d)) (shuffle3 d v))) /\
   (lookup ivec3_scalars x = None -> lookup ivec3_shuffles x = None -> forall n g s, iuse ivec3_union x n g s = None)) /\
  ((forall d, lookup ivec4_scalars x = Some d -> exists i, d_indices d = [i] /\ (i < 4)%nat /\
      forall n g s, iuse ivec4_union x n g s = icall "scalar_accessor_4i" [TTy "int32_t"; TIx i] n g s) /\
   (forall d, lookup ivec4_shuffles x = Some d -> forall v : vec4 Z, List.length (d_indices d) = d_result d /\
      iuse ivec4_union x (Nconv (ivec (d_result d))) GNone (l4 v) = cret (l4 v, RObj (ivec (d_result d)) (shuffle4 d v))) /\
   (lookup ivec4_scalars x = None -> lookup ivec4_shuffles x = None -> forall n g s, iuse ivec4_union x n g s = None)).
Proof. exact C103_names_ivec_pf. Qed.
Print Assumptions C103_names_ivec.

(** [format_as] of an accessor or swizzle is its value. *)
Theorem C103_format : forall (S : Scalar) (i : nat) (l : list nat) (t : string),
  ((i < 2)%nat -> Forall (fun k => k < 2)%nat l -> forall (v : vec2 S) (w : vec2 Z),
   let ff := format accessor_code "float" (float_arith S) f1 format_code in
   let fi := format accessor_code "int32_t" int_arith 1%Z format_code in
   ff "scalar_accessor_2" [TTy "float"; TIx i] (l2 v) = cret (RVal (el2 v i)) /\
   fi "scalar_accessor_2i" [TTy "int32_t"; TIx i] (l2 w) = cret (RVal (el2 w i)) /\
   ff "shuffle_accessor_2" (TTy "float" :: TTy t :: map TIx l) (l2 v) = cret (RObj t (map (el2 v) l)) /\
   fi "shuffle_accessor_2" (TTy "int32_t" :: TTy t :: map TIx l) (l2 w) = cret (RObj t (map (el2 w) l))) /\
  ((i < 3)%nat -> Forall (fun k => k < 3)%nat l -> forall (v : vec3 S) (w : vec3 Z),
   let ff := format accessor_code "float" (float_arith S) f1 format_code in
   let fi := format accessor_code "int32_t" int_arith 1%Z format_code in
   ff "scalar_accessor_3" [TTy "float"; TIx i] (l3 v) = cret (RVal (el3 v i)) /\
   fi "scalar_accessor_3i" [TTy "int32_t"; TIx i] (l3 w) = cret (RVal (el3 w i)) /\
   ff "shuffle_accessor_3" (TTy "float" :: TTy t :: map TIx l) (l3 v) = cret (RObj t (map (el3 v) l)) /\
   fi "shuffle_accessor_3" (TTy "int32_t" :: TTy t :: map TIx l) (l3 w) = cret (RObj t (map (el3 w) l))) /\
  ((i < 4)%nat -> Forall (fun k => k < 4)%nat l -> forall (v : vec4 S) (w : vec4 Z),
   let ff := format accessor_code "float" (float_arith S) f1 format_code in
   let fi := format accessor_code "int32_t" int_arith 1%Z format_code in
   ff "scalar_accessor_4" [TTy "float"; TIx i] (l4 v) = cret (RVal (el4 v i)) /\
   fi "scalar_accessor_4i" [TTy "int32_t"; TIx i] (l4 w) = cret (RVal (el4 w i)) /\
   ff "shuffle_accessor_4" (TTy "float" :: TTy t :: map TIx l) (l4 v) = cret (RObj t (map (el4 v) l)) /\
   fi "shuffle_accessor_4" (TTy "int32_t" :: TTy t :: map TIx l) (l4 w) = cret (RObj t (map (el4 w) l))).
Proof. exact C103_format_pf. Qed.
Print Assumptions C103_format.

(** concrete cases: [v.b = 9] on a vec3, [v.zx], [n.y %= 4],
    the copy [a.x = b.x], the rejected [n.x = 5] *)
Example C103_case :
  iuse ivec3_union "y" (Ncompound AoRem) (GVal 4%Z) [7%Z; 10%Z; 9%Z] = cret ([7%Z; 2%Z; 9%Z], RNone) /\
  iuse ivec3_union "zx" (Nconv "ivec2") GNone [7%Z; 8%Z; 9%Z] = cret ([7%Z; 8%Z; 9%Z], RObj "ivec2" [9%Z; 7%Z]) /\
  iuse ivec3_union "x" Nassign (GVal 5%Z) [7%Z; 8%Z; 9%Z] = None /\
  iuse ivec3_union "x" (Ncompound AoDiv) (GVal 0%Z) [7%Z; 8%Z; 9%Z] = Some Undefined /\
  (forall (S : Scalar) (a b c d : S), fuse S vec3_union "b" Nassign (GVal d) [a; b; c] = cret ([a; b; d], RNone)) /\
  (forall (S : Scalar) (a b c d e f : S), fuse S vec3_union "x" Nassign (GAcc "scalar_accessor_3" [TTy "float"; TIx 0] [d; e; f]) [a; b; c] = cret ([d; e; f], RNone)).
Proof. repeat split; reflexivity. Qed.
