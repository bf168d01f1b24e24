(** * Boolean vectors: src/bvec2.cpp, src/bvec3.cpp, src/bvec4.cpp

    [&&], [||] and [^] on bool values are the Boolean connectives (no operand
    here has a side effect, so short-circuiting is unobservable). *)
From Coq Require Import NArith Bool List.
From Verif Require Import Outcome Types.
Local Open Scope outcome_scope.

(** ** bvec2 *)

(** src/bvec2.cpp 14-17: constructor *)
Definition bvec2_b (value : bool) : vec2 bool := V2 value value.
(** src/bvec2.cpp 10-12: default constructor *)
Definition bvec2_default : vec2 bool := bvec2_b false.
(** src/bvec2.cpp 19-22: constructor *)
Definition bvec2_xy (x y : bool) : vec2 bool := V2 x y.
(** src/bvec2.cpp 24-28: operator && on vectors *)
Definition bvec2_and (first second : vec2 bool) : vec2 bool :=
  V2 (andb (x2 first) (x2 second)) (andb (y2 first) (y2 second)).
(** src/bvec2.cpp 30-34: vector && scalar *)
Definition bvec2_and_sc (vec : vec2 bool) (scalar : bool) : vec2 bool :=
  V2 (andb (x2 vec) scalar) (andb (y2 vec) scalar).
(** src/bvec2.cpp 36-40: scalar && vector *)
Definition sc_and_bvec2 (scalar : bool) (vec : vec2 bool) : vec2 bool :=
  V2 (andb (x2 vec) scalar) (andb (y2 vec) scalar).
(** src/bvec2.cpp 43-47: operator || on vectors *)
Definition bvec2_or (first second : vec2 bool) : vec2 bool :=
  V2 (orb (x2 first) (x2 second)) (orb (y2 first) (y2 second)).
(** src/bvec2.cpp 49-53: vector || scalar *)
Definition bvec2_or_sc (vec : vec2 bool) (scalar : bool) : vec2 bool :=
  V2 (orb (x2 vec) scalar) (orb (y2 vec) scalar).
(** src/bvec2.cpp 55-59: scalar || vector *)
Definition sc_or_bvec2 (scalar : bool) (vec : vec2 bool) : vec2 bool :=
  V2 (orb (x2 vec) scalar) (orb (y2 vec) scalar).
(** src/bvec2.cpp 62-66: operator ^ on vectors *)
Definition bvec2_xor (first second : vec2 bool) : vec2 bool :=
  V2 (xorb (x2 first) (x2 second)) (xorb (y2 first) (y2 second)).
(** src/bvec2.cpp 68-72: vector ^ scalar *)
Definition bvec2_xor_sc (vec : vec2 bool) (scalar : bool) : vec2 bool :=
  V2 (xorb (x2 vec) scalar) (xorb (y2 vec) scalar).
(** src/bvec2.cpp 74-78: scalar ^ vector *)
Definition sc_xor_bvec2 (scalar : bool) (vec : vec2 bool) : vec2 bool :=
  V2 (xorb (x2 vec) scalar) (xorb (y2 vec) scalar).
(** src/bvec2.cpp 80-84: operator ! *)
Definition bvec2_not (first : vec2 bool) : vec2 bool := V2 (negb (x2 first)) (negb (y2 first)).
(** src/bvec2.cpp 105-109: operator &=, by-value vector operand *)
Definition bvec2_and_assign (rd : vec2 bool -> vec2 bool) (self : vec2 bool) : vec2 bool :=
  let other := rd self in
  let self := set2 self 0 (andb (x2 self) (x2 other)) in
  let self := set2 self 1 (andb (y2 self) (y2 other)) in
  self.
(** src/bvec2.cpp 87-91: operator &=, by-value scalar operand *)
Definition bvec2_and_assign_sc (rd : vec2 bool -> bool) (self : vec2 bool) : vec2 bool :=
  let scalar := rd self in
  let self := set2 self 0 (andb (x2 self) scalar) in
  let self := set2 self 1 (andb (y2 self) scalar) in
  self.
(** src/bvec2.cpp 111-115: operator |=, by-value vector operand *)
Definition bvec2_or_assign (rd : vec2 bool -> vec2 bool) (self : vec2 bool) : vec2 bool :=
  let other := rd self in
  let self := set2 self 0 (orb (x2 self) (x2 other)) in
  let self := set2 self 1 (orb (y2 self) (y2 other)) in
  self.
(** src/bvec2.cpp 93-97: operator |=, by-value scalar operand *)
Definition bvec2_or_assign_sc (rd : vec2 bool -> bool) (self : vec2 bool) : vec2 bool :=
  let scalar := rd self in
  let self := set2 self 0 (orb (x2 self) scalar) in
  let self := set2 self 1 (orb (y2 self) scalar) in
  self.
(** src/bvec2.cpp 117-121: operator ^=, by-value vector operand *)
Definition bvec2_xor_assign (rd : vec2 bool -> vec2 bool) (self : vec2 bool) : vec2 bool :=
  let other := rd self in
  let self := set2 self 0 (xorb (x2 self) (x2 other)) in
  let self := set2 self 1 (xorb (y2 self) (y2 other)) in
  self.
(** src/bvec2.cpp 99-103: operator ^=, by-value scalar operand *)
Definition bvec2_xor_assign_sc (rd : vec2 bool -> bool) (self : vec2 bool) : vec2 bool :=
  let scalar := rd self in
  let self := set2 self 0 (xorb (x2 self) scalar) in
  let self := set2 self 1 (xorb (y2 self) scalar) in
  self.
(** src/bvec2.cpp 123-126: operator == *)
Definition bvec2_eq (first second : vec2 bool) : bool :=
  (eqb (x2 first) (x2 second)) && (eqb (y2 first) (y2 second)).
(** src/bvec2.cpp 128-131: operator != *)
Definition bvec2_ne (first second : vec2 bool) : bool := negb (bvec2_eq first second).
(** src/bvec2.cpp 133-155: operator[]; every index not matched by a test selects the last member *)
Definition bvec2_index (b : build) (self : vec2 bool) (val : N) : outcome bool :=
  do u <- cassert b (N.ltb val 3);
  if N.eqb val 0 then Ret (x2 self) else
  Ret (y2 self).
(** src/bvec2.cpp 133-155: operator[] as an lvalue *)
Definition bvec2_index_set (b : build) (self : vec2 bool) (val : N) (a : bool) : outcome (vec2 bool) :=
  do u <- cassert b (N.ltb val 3);
  if N.eqb val 0 then Ret (set2 self 0 a) else
  Ret (set2 self 1 a).
(** src/bvec2.cpp 157-161: make_bvec2 *)
Definition make_bvec2 (b : build) (ptr : option (list bool)) : outcome (vec2 bool) :=
  do u <- assert_ptr b ptr;
  do x <- deref ptr 0;
  do y <- deref ptr 1;
  Ret (bvec2_xy x y).

(** ** bvec3 *)

(** src/bvec3.cpp 14-18: constructor *)
Definition bvec3_b (value : bool) : vec3 bool := V3 value value value.
(** src/bvec3.cpp 10-12: default constructor *)
Definition bvec3_default : vec3 bool := bvec3_b false.
(** src/bvec3.cpp 20-24: constructor *)
Definition bvec3_xyz (x y z : bool) : vec3 bool := V3 x y z.
(** src/bvec3.cpp 26-30: constructor *)
Definition bvec3_v2b (xy : vec2 bool) (z : bool) : vec3 bool := V3 (x2 xy) (y2 xy) z.
(** src/bvec3.cpp 32-36: constructor *)
Definition bvec3_bv2 (x : bool) (yz : vec2 bool) : vec3 bool := V3 x (x2 yz) (y2 yz).
(** src/bvec3.cpp 39-44: operator && on vectors *)
Definition bvec3_and (first second : vec3 bool) : vec3 bool :=
  V3 (andb (x3 first) (x3 second)) (andb (y3 first) (y3 second)) (andb (z3 first) (z3 second)).
(** src/bvec3.cpp 46-51: vector && scalar *)
Definition bvec3_and_sc (vec : vec3 bool) (scalar : bool) : vec3 bool :=
  V3 (andb (x3 vec) scalar) (andb (y3 vec) scalar) (andb (z3 vec) scalar).
(** src/bvec3.cpp 53-58: scalar && vector *)
Definition sc_and_bvec3 (scalar : bool) (vec : vec3 bool) : vec3 bool :=
  V3 (andb (x3 vec) scalar) (andb (y3 vec) scalar) (andb (z3 vec) scalar).
(** src/bvec3.cpp 61-66: operator || on vectors *)
Definition bvec3_or (first second : vec3 bool) : vec3 bool :=
  V3 (orb (x3 first) (x3 second)) (orb (y3 first) (y3 second)) (orb (z3 first) (z3 second)).
(** src/bvec3.cpp 68-73: vector || scalar *)
Definition bvec3_or_sc (vec : vec3 bool) (scalar : bool) : vec3 bool :=
  V3 (orb (x3 vec) scalar) (orb (y3 vec) scalar) (orb (z3 vec) scalar).
(** src/bvec3.cpp 75-80: scalar || vector *)
Definition sc_or_bvec3 (scalar : bool) (vec : vec3 bool) : vec3 bool :=
  V3 (orb (x3 vec) scalar) (orb (y3 vec) scalar) (orb (z3 vec) scalar).
(** src/bvec3.cpp 83-88: operator ^ on vectors *)
Definition bvec3_xor (first second : vec3 bool) : vec3 bool :=
  V3 (xorb (x3 first) (x3 second)) (xorb (y3 first) (y3 second)) (xorb (z3 first) (z3 second)).
(** src/bvec3.cpp 90-95: vector ^ scalar *)
Definition bvec3_xor_sc (vec : vec3 bool) (scalar : bool) : vec3 bool :=
  V3 (xorb (x3 vec) scalar) (xorb (y3 vec) scalar) (xorb (z3 vec) scalar).
(** src/bvec3.cpp 97-102: scalar ^ vector *)
Definition sc_xor_bvec3 (scalar : bool) (vec : vec3 bool) : vec3 bool :=
  V3 (xorb (x3 vec) scalar) (xorb (y3 vec) scalar) (xorb (z3 vec) scalar).
(** src/bvec3.cpp 104-109: operator ! *)
Definition bvec3_not (first : vec3 bool) : vec3 bool := V3 (negb (x3 first)) (negb (y3 first)) (negb (z3 first)).
(** src/bvec3.cpp 132-137: operator &=, by-value vector operand *)
Definition bvec3_and_assign (rd : vec3 bool -> vec3 bool) (self : vec3 bool) : vec3 bool :=
  let other := rd self in
  let self := set3 self 0 (andb (x3 self) (x3 other)) in
  let self := set3 self 1 (andb (y3 self) (y3 other)) in
  let self := set3 self 2 (andb (z3 self) (z3 other)) in
  self.
(** src/bvec3.cpp 111-116: operator &=, by-value scalar operand *)
Definition bvec3_and_assign_sc (rd : vec3 bool -> bool) (self : vec3 bool) : vec3 bool :=
  let scalar := rd self in
  let self := set3 self 0 (andb (x3 self) scalar) in
  let self := set3 self 1 (andb (y3 self) scalar) in
  let self := set3 self 2 (andb (z3 self) scalar) in
  self.
(** src/bvec3.cpp 139-144: operator |=, by-value vector operand *)
Definition bvec3_or_assign (rd : vec3 bool -> vec3 bool) (self : vec3 bool) : vec3 bool :=
  let other := rd self in
  let self := set3 self 0 (orb (x3 self) (x3 other)) in
  let self := set3 self 1 (orb (y3 self) (y3 other)) in
  let self := set3 self 2 (orb (z3 self) (z3 other)) in
  self.
(** src/bvec3.cpp 118-123: operator |=, by-value scalar operand *)
Definition bvec3_or_assign_sc (rd : vec3 bool -> bool) (self : vec3 bool) : vec3 bool :=
  let scalar := rd self in
  let self := set3 self 0 (orb (x3 self) scalar) in
  let self := set3 self 1 (orb (y3 self) scalar) in
  let self := set3 self 2 (orb (z3 self) scalar) in
  self.
(** src/bvec3.cpp 146-151: operator ^=, by-value vector operand *)
Definition bvec3_xor_assign (rd : vec3 bool -> vec3 bool) (self : vec3 bool) : vec3 bool :=
  let other := rd self in
  let self := set3 self 0 (xorb (x3 self) (x3 other)) in
  let self := set3 self 1 (xorb (y3 self) (y3 other)) in
  let self := set3 self 2 (xorb (z3 self) (z3 other)) in
  self.
(** src/bvec3.cpp 125-130: operator ^=, by-value scalar operand *)
Definition bvec3_xor_assign_sc (rd : vec3 bool -> bool) (self : vec3 bool) : vec3 bool :=
  let scalar := rd self in
  let self := set3 self 0 (xorb (x3 self) scalar) in
  let self := set3 self 1 (xorb (y3 self) scalar) in
  let self := set3 self 2 (xorb (z3 self) scalar) in
  self.
(** src/bvec3.cpp 153-156: operator == *)
Definition bvec3_eq (first second : vec3 bool) : bool :=
  (eqb (x3 first) (x3 second)) && (eqb (y3 first) (y3 second)) && (eqb (z3 first) (z3 second)).
(** src/bvec3.cpp 158-161: operator != *)
Definition bvec3_ne (first second : vec3 bool) : bool := negb (bvec3_eq first second).
(** src/bvec3.cpp 164-192: operator[]; every index not matched by a test selects the last member *)
Definition bvec3_index (b : build) (self : vec3 bool) (val : N) : outcome bool :=
  do u <- cassert b (N.ltb val 3);
  if N.eqb val 0 then Ret (x3 self) else
  if N.eqb val 1 then Ret (y3 self) else
  Ret (z3 self).
(** src/bvec3.cpp 164-192: operator[] as an lvalue *)
Definition bvec3_index_set (b : build) (self : vec3 bool) (val : N) (a : bool) : outcome (vec3 bool) :=
  do u <- cassert b (N.ltb val 3);
  if N.eqb val 0 then Ret (set3 self 0 a) else
  if N.eqb val 1 then Ret (set3 self 1 a) else
  Ret (set3 self 2 a).
(** src/bvec3.cpp 194-198: make_bvec3 *)
Definition make_bvec3 (b : build) (ptr : option (list bool)) : outcome (vec3 bool) :=
  do u <- assert_ptr b ptr;
  do x <- deref ptr 0;
  do y <- deref ptr 1;
  do z <- deref ptr 2;
  Ret (bvec3_xyz x y z).

(** ** bvec4 *)

(** src/bvec4.cpp 14-19: constructor *)
Definition bvec4_b (value : bool) : vec4 bool := V4 value value value value.
(** src/bvec4.cpp 10-12: default constructor *)
Definition bvec4_default : vec4 bool := bvec4_b false.
(** src/bvec4.cpp 20-25: constructor *)
Definition bvec4_xyzw (x y z w : bool) : vec4 bool := V4 x y z w.
(** src/bvec4.cpp 27-32: constructor *)
Definition bvec4_v3b (xyz : vec3 bool) (w : bool) : vec4 bool := V4 (x3 xyz) (y3 xyz) (z3 xyz) w.
(** src/bvec4.cpp 34-39: constructor *)
Definition bvec4_bv3 (x : bool) (yzw : vec3 bool) : vec4 bool := V4 x (x3 yzw) (y3 yzw) (z3 yzw).
(** src/bvec4.cpp 41-46: constructor *)
Definition bvec4_v2v2 (xy zw : vec2 bool) : vec4 bool := V4 (x2 xy) (y2 xy) (x2 zw) (y2 zw).
(** src/bvec4.cpp 48-53: constructor *)
Definition bvec4_v2bb (xy : vec2 bool) (z w : bool) : vec4 bool := V4 (x2 xy) (y2 xy) z w.
(** src/bvec4.cpp 55-60: constructor *)
Definition bvec4_bv2b (x : bool) (yz : vec2 bool) (w : bool) : vec4 bool := V4 x (x2 yz) (y2 yz) w.
(** src/bvec4.cpp 62-67: constructor *)
Definition bvec4_bbv2 (x y : bool) (zw : vec2 bool) : vec4 bool := V4 x y (x2 zw) (y2 zw).
(** src/bvec4.cpp 70-76: operator && on vectors *)
Definition bvec4_and (first second : vec4 bool) : vec4 bool :=
  V4 (andb (x4 first) (x4 second)) (andb (y4 first) (y4 second)) (andb (z4 first) (z4 second)) (andb (w4 first) (w4 second)).
(** src/bvec4.cpp 78-84: vector && scalar *)
Definition bvec4_and_sc (vec : vec4 bool) (scalar : bool) : vec4 bool :=
  V4 (andb (x4 vec) scalar) (andb (y4 vec) scalar) (andb (z4 vec) scalar) (andb (w4 vec) scalar).
(** src/bvec4.cpp 86-92: scalar && vector *)
Definition sc_and_bvec4 (scalar : bool) (vec : vec4 bool) : vec4 bool :=
  V4 (andb (x4 vec) scalar) (andb (y4 vec) scalar) (andb (z4 vec) scalar) (andb (w4 vec) scalar).
(** src/bvec4.cpp 95-101: operator || on vectors *)
Definition bvec4_or (first second : vec4 bool) : vec4 bool :=
  V4 (orb (x4 first) (x4 second)) (orb (y4 first) (y4 second)) (orb (z4 first) (z4 second)) (orb (w4 first) (w4 second)).
(** src/bvec4.cpp 103-109: vector || scalar *)
Definition bvec4_or_sc (vec : vec4 bool) (scalar : bool) : vec4 bool :=
  V4 (orb (x4 vec) scalar) (orb (y4 vec) scalar) (orb (z4 vec) scalar) (orb (w4 vec) scalar).
(** src/bvec4.cpp 111-117: scalar || vector *)
Definition sc_or_bvec4 (scalar : bool) (vec : vec4 bool) : vec4 bool :=
  V4 (orb (x4 vec) scalar) (orb (y4 vec) scalar) (orb (z4 vec) scalar) (orb (w4 vec) scalar).
(** src/bvec4.cpp 120-126: operator ^ on vectors *)
Definition bvec4_xor (first second : vec4 bool) : vec4 bool :=
  V4 (xorb (x4 first) (x4 second)) (xorb (y4 first) (y4 second)) (xorb (z4 first) (z4 second)) (xorb (w4 first) (w4 second)).
(** src/bvec4.cpp 128-134: vector ^ scalar *)
Definition bvec4_xor_sc (vec : vec4 bool) (scalar : bool) : vec4 bool :=
  V4 (xorb (x4 vec) scalar) (xorb (y4 vec) scalar) (xorb (z4 vec) scalar) (xorb (w4 vec) scalar).
(** src/bvec4.cpp 136-142: scalar ^ vector *)
Definition sc_xor_bvec4 (scalar : bool) (vec : vec4 bool) : vec4 bool :=
  V4 (xorb (x4 vec) scalar) (xorb (y4 vec) scalar) (xorb (z4 vec) scalar) (xorb (w4 vec) scalar).
(** src/bvec4.cpp 144-150: operator ! *)
Definition bvec4_not (first : vec4 bool) : vec4 bool := V4 (negb (x4 first)) (negb (y4 first)) (negb (z4 first)) (negb (w4 first)).
(** src/bvec4.cpp 186-192: operator &=, by-value vector operand *)
Definition bvec4_and_assign (rd : vec4 bool -> vec4 bool) (self : vec4 bool) : vec4 bool :=
  let other := rd self in
  let self := set4 self 0 (andb (x4 self) (x4 other)) in
  let self := set4 self 1 (andb (y4 self) (y4 other)) in
  let self := set4 self 2 (andb (z4 self) (z4 other)) in
  let self := set4 self 3 (andb (w4 self) (w4 other)) in
  self.
(** src/bvec4.cpp 162-168: operator &=, by-value scalar operand *)
Definition bvec4_and_assign_sc (rd : vec4 bool -> bool) (self : vec4 bool) : vec4 bool :=
  let scalar := rd self in
  let self := set4 self 0 (andb (x4 self) scalar) in
  let self := set4 self 1 (andb (y4 self) scalar) in
  let self := set4 self 2 (andb (z4 self) scalar) in
  let self := set4 self 3 (andb (w4 self) scalar) in
  self.
(** src/bvec4.cpp 194-200: operator |=, by-value vector operand *)
Definition bvec4_or_assign (rd : vec4 bool -> vec4 bool) (self : vec4 bool) : vec4 bool :=
  let other := rd self in
  let self := set4 self 0 (orb (x4 self) (x4 other)) in
  let self := set4 self 1 (orb (y4 self) (y4 other)) in
  let self := set4 self 2 (orb (z4 self) (z4 other)) in
  let self := set4 self 3 (orb (w4 self) (w4 other)) in
  self.
(** src/bvec4.cpp 170-176: operator |=, by-value scalar operand *)
Definition bvec4_or_assign_sc (rd : vec4 bool -> bool) (self : vec4 bool) : vec4 bool :=
  let scalar := rd self in
  let self := set4 self 0 (orb (x4 self) scalar) in
  let self := set4 self 1 (orb (y4 self) scalar) in
  let self := set4 self 2 (orb (z4 self) scalar) in
  let self := set4 self 3 (orb (w4 self) scalar) in
  self.
(** src/bvec4.cpp 202-208: operator ^=, by-value vector operand *)
Definition bvec4_xor_assign (rd : vec4 bool -> vec4 bool) (self : vec4 bool) : vec4 bool :=
  let other := rd self in
  let self := set4 self 0 (xorb (x4 self) (x4 other)) in
  let self := set4 self 1 (xorb (y4 self) (y4 other)) in
  let self := set4 self 2 (xorb (z4 self) (z4 other)) in
  let self := set4 self 3 (xorb (w4 self) (w4 other)) in
  self.
(** src/bvec4.cpp 178-184: operator ^=, by-value scalar operand *)
Definition bvec4_xor_assign_sc (rd : vec4 bool -> bool) (self : vec4 bool) : vec4 bool :=
  let scalar := rd self in
  let self := set4 self 0 (xorb (x4 self) scalar) in
  let self := set4 self 1 (xorb (y4 self) scalar) in
  let self := set4 self 2 (xorb (z4 self) scalar) in
  let self := set4 self 3 (xorb (w4 self) scalar) in
  self.
(** src/bvec4.cpp 152-155: operator == *)
Definition bvec4_eq (first second : vec4 bool) : bool :=
  (eqb (x4 first) (x4 second)) && (eqb (y4 first) (y4 second)) && (eqb (z4 first) (z4 second)) && (eqb (w4 first) (w4 second)).
(** src/bvec4.cpp 157-160: operator != *)
Definition bvec4_ne (first second : vec4 bool) : bool := negb (bvec4_eq first second).
(** src/bvec4.cpp 211-243: operator[]; every index not matched by a test selects the last member *)
Definition bvec4_index (b : build) (self : vec4 bool) (val : N) : outcome bool :=
  do u <- cassert b (N.ltb val 4);
  if N.eqb val 0 then Ret (x4 self) else
  if N.eqb val 1 then Ret (y4 self) else
  if N.eqb val 2 then Ret (z4 self) else
  Ret (w4 self).
(** src/bvec4.cpp 211-243: operator[] as an lvalue *)
Definition bvec4_index_set (b : build) (self : vec4 bool) (val : N) (a : bool) : outcome (vec4 bool) :=
  do u <- cassert b (N.ltb val 4);
  if N.eqb val 0 then Ret (set4 self 0 a) else
  if N.eqb val 1 then Ret (set4 self 1 a) else
  if N.eqb val 2 then Ret (set4 self 2 a) else
  Ret (set4 self 3 a).
(** src/bvec4.cpp 245-249: make_bvec4 *)
Definition make_bvec4 (b : build) (ptr : option (list bool)) : outcome (vec4 bool) :=
  do u <- assert_ptr b ptr;
  do x <- deref ptr 0;
  do y <- deref ptr 1;
  do z <- deref ptr 2;
  do w <- deref ptr 3;
  Ret (bvec4_xyzw x y z w).

