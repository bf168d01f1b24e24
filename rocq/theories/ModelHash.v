(** * src/hash.cpp and the std::hash specialisations of include/zcm/hash.hpp

    A hash is a 64-bit word: a [Z] in [0, 2^64).  size_t and unsigned long long
    are 64 bits and unsigned is 32 bits (the ABI the code's shifts assume).  A
    float enters as its 32-bit memory image, a [Z] in [0, 2^32), because the code
    copies the bytes; [f32_of_bits] is the value that image denotes. *)
From Coq Require Import ZArith Bool List.
From Flocq Require Import Core IEEE754.BinarySingleNaN IEEE754.Binary IEEE754.Bits.
From Verif Require Import Scalar IEEE32 Types.
Local Open Scope Z_scope.

(** A 32-bit memory image of a float or an unsigned. *)
Definition is_u32 (z : Z) : Prop := 0 <= z < 2 ^ 32.
(** The float value of a memory image (IEEE 754 interchange format). *)
Definition f32_of_bits (z : Z) : f32 := B2BSN 24 128 (b32_of_bits z).

(** Conversion to unsigned long long / size_t and the 64-bit operators. *)
Definition u64 (z : Z) : Z := z mod 2 ^ 64.
Definition u64_not (h : Z) : Z := 2 ^ 64 - 1 - h.
Definition u64_shl (h n : Z) : Z := u64 (h * 2 ^ n).

(** hash.cpp 119-122: hash(unsigned) *)
Definition hash_unsigned (val : Z) : Z := u64 (val * 1273103906433186827).
(** hash.cpp 114-117: hash(int); the int is converted to unsigned long long *)
Definition hash_int (val : Z) : Z := u64 (u64 val * 1273103906433186827).
(** hash.cpp 109-112: hash(bool) *)
Definition hash_bool (x : bool) : Z :=
  if x then 14946564255682567559 else 9039655308336254491.
(** hash.cpp 17-23: float_hash; [f] is the memory image *)
Definition float_hash (f : Z) : Z := hash_unsigned f.
(** hash.cpp 25-29: hash(float) *)
Definition hash_float (f : Z) : Z :=
  let h := float_hash f in
  Z.lor (u64_shl (u64_not h) 32) h.
(** hash.cpp 31-36, hash.hpp std::hash<vec2> *)
Definition hash_vec2 (v : vec2 Z) : Z :=
  let hx := float_hash (x2 v) in
  let hy := float_hash (y2 v) in
  Z.lor (u64_shl hx 32) hy.
(** hash.cpp 38-44 *)
Definition hash_vec3 (v : vec3 Z) : Z :=
  let hx := float_hash (x3 v) in
  let hy := float_hash (y3 v) in
  let hz := float_hash (z3 v) in
  Z.lxor (Z.lor (u64_shl hx 32) hy) (u64_shl hz 16).
(** hash.cpp 46-53 *)
Definition hash_vec4 (v : vec4 Z) : Z :=
  let hx := float_hash (x4 v) in
  let hy := float_hash (y4 v) in
  let hz := float_hash (z4 v) in
  let hw := float_hash (w4 v) in
  Z.lxor (Z.lxor (Z.lor (u64_shl hx 32) hy) (u64_shl hz 16)) hw.
(** hash.cpp 55-62 *)
Definition hash_quat (v : quat Z) : Z :=
  let hx := float_hash (qx v) in
  let hy := float_hash (qy v) in
  let hz := float_hash (qz v) in
  let hw := float_hash (qw v) in
  Z.lxor (Z.lxor (Z.lor (u64_shl hx 32) hy) (u64_shl hz 16)) hw.
(** hash.cpp 64-67 *)
Definition hash_mat2 (m : mat2 Z) : Z := Z.lxor (hash_vec2 (col2 m 0)) (hash_vec2 (col2 m 1)).
(** hash.cpp 69-72 *)
Definition hash_mat3 (m : mat3 Z) : Z :=
  Z.lxor (Z.lxor (hash_vec3 (col3 m 0)) (hash_vec3 (col3 m 1))) (hash_vec3 (col3 m 2)).
(** hash.cpp 74-77; column 1 occurs twice, column 2 not at all *)
Definition hash_mat4 (m : mat4 Z) : Z :=
  Z.lxor (Z.lxor (Z.lxor (hash_vec4 (col4 m 0)) (hash_vec4 (col4 m 1))) (hash_vec4 (col4 m 1)))
         (hash_vec4 (col4 m 3)).
(** hash.cpp 79-82 *)
Definition hash_bvec2 (b : vec2 bool) : Z := Z.lxor (hash_bool (x2 b)) (hash_bool (y2 b)).
(** hash.cpp 84-87 *)
Definition hash_bvec3 (b : vec3 bool) : Z :=
  Z.lxor (Z.lxor (hash_bool (x3 b)) (hash_bool (y3 b))) (hash_bool (z3 b)).
(** hash.cpp 89-92 *)
Definition hash_bvec4 (b : vec4 bool) : Z :=
  Z.lxor (Z.lxor (Z.lxor (hash_bool (x4 b)) (hash_bool (y4 b))) (hash_bool (z4 b))) (hash_bool (w4 b)).
(** hash.cpp 94-97 *)
Definition hash_ivec2 (v : vec2 Z) : Z := Z.lxor (hash_int (x2 v)) (hash_int (y2 v)).
(** hash.cpp 99-102 *)
Definition hash_ivec3 (v : vec3 Z) : Z :=
  Z.lxor (Z.lxor (hash_int (x3 v)) (hash_int (y3 v))) (hash_int (z3 v)).
(** hash.cpp 104-107 *)
Definition hash_ivec4 (v : vec4 Z) : Z :=
  Z.lxor (Z.lxor (Z.lxor (hash_int (x4 v)) (hash_int (y4 v))) (hash_int (z4 v))) (hash_int (w4 v)).
