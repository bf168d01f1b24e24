(** * Specification: arguments of the functions of hash.cpp and type_ptr.cpp as objects in memory *)
From Coq Require Import ZArith List.
From Verif Require Import Types Cpp CppHash CppHashCode.
Import ListNotations.

Definition all_code : list hfun := hash_code ++ std_hash_code ++ value_ptr_code.

(** objects of class [c] made of scalars; [f] is the scalar's type *)
Section Objects.
Context {A : Type} (f : A -> hval).
Definition o2 (c : cls) (v : vec2 A) : hval := HVO c [f (x2 v); f (y2 v)].
Definition o3 (c : cls) (v : vec3 A) : hval := HVO c [f (x3 v); f (y3 v); f (z3 v)].
Definition o4 (c : cls) (v : vec4 A) : hval := HVO c [f (x4 v); f (y4 v); f (z4 v); f (w4 v)].
Definition oq (v : quat A) : hval := HVO Cquat [f (qx v); f (qy v); f (qz v); f (qw v)].
Definition om2 (m : mat2 A) : hval := HVO Cmat2 [o2 Cvec2 (col2 m 0); o2 Cvec2 (col2 m 1)].
Definition om3 (m : mat3 A) : hval := HVO Cmat3 [o3 Cvec3 (col3 m 0); o3 Cvec3 (col3 m 1); o3 Cvec3 (col3 m 2)].
Definition om4 (m : mat4 A) : hval := HVO Cmat4 [o4 Cvec4 (col4 m 0); o4 Cvec4 (col4 m 1); o4 Cvec4 (col4 m 2); o4 Cvec4 (col4 m 3)].
End Objects.
