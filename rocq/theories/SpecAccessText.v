(** * Specification: element types of the accessor templates *)
From Coq Require Import ZArith List String.
From Verif Require Import Scalar Outcome Types Int32 CppAccess CppAccessCode ModelSwizzle.
Import ListNotations.
Local Open Scope string_scope.
Local Open Scope scalar_scope.

(** float has + - * / only *)
Definition float_arith (S : Scalar) (op : aop) (a b : S) : comp S :=
  match op with
  | AoAdd => cret (sadd a b)
  | AoSub => cret (ssub a b)
  | AoMul => cret (smul a b)
  | AoDiv => cret (sdiv a b)
  | _ => None
  end.
Definition int_arith (op : aop) (a b : Z) : comp Z :=
  Some match op with
       | AoAdd => i32_add a b
       | AoSub => i32_sub a b
       | AoMul => i32_mul a b
       | AoDiv => i32_div a b
       | AoRem => i32_rem a b
       | AoOr => i32_or a b
       | AoAnd => i32_and a b
       | AoXor => i32_xor a b
       | AoShl => i32_shl a b
       | AoShr => i32_shr a b
       end.
(** an operation on an accessor of a float vector: [cls<float, args> x; x.n(g)] *)
Definition fcall (S : Scalar) (c : string) (l : list targ) (n : aname) (g : aarg S) (s : list S) : comp (list S * ares S) :=
  call accessor_code "float" (float_arith S) f1 c l n g s.
Definition icall (c : string) (l : list targ) (n : aname) (g : aarg Z) (s : list Z) : comp (list Z * ares Z) :=
  call accessor_code "int32_t" int_arith 1%Z c l n g s.
(** the same for the member called [x] of a vector *)
Definition fuse (S : Scalar) (u : aunion) (x : string) (n : aname) (g : aarg S) (s : list S) : comp (list S * ares S) :=
  use accessor_code "float" (float_arith S) f1 u x n g s.
Definition iuse (u : aunion) (x : string) (n : aname) (g : aarg Z) (s : list Z) : comp (list Z * ares Z) :=
  use accessor_code "int32_t" int_arith 1%Z u x n g s.
(** the operation is void and leaves the elements [o] *)
Definition leaves_elements {V A} (l : V -> list A) (o : outcome V) : comp (list A * ares A) :=
  Some (bind o (fun v => Ret (l v, RNone))).
(** the operation returns the value [snd o] *)
Definition returns_value {V A} (l : V -> list A) (o : outcome (V * A)) : comp (list A * ares A) :=
  Some (bind o (fun r => Ret (l (fst r), RVal (snd r)))).
(** the operation returns a reference to the element [i], whose value is then [snd o] *)
Definition returns_element {V A} (l : V -> list A) (i : nat) (o : outcome (V * A)) (r : comp (list A * ares A)) : Prop :=
  r = Some (bind o (fun q => Ret (l (fst q), RRef i))) /\
  (forall q, o = Ret q -> nth_error (l (fst q)) i = Some (snd q)).
(** names of the vector classes with float and int elements *)
Definition fvec (k : nat) : string := match k with 2 => "vec2" | 3 => "vec3" | _ => "vec4" end.
Definition ivec (k : nat) : string := match k with 2 => "ivec2" | 3 => "ivec3" | _ => "ivec4" end.
