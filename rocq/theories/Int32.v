(** * [int32_t] arithmetic

    Values are integers; every operation whose mathematical result does not fit
    32 bits is [Undefined] (C++14 [expr]/4), as are division by zero and the
    shifts that [expr.shift] leaves undefined.  Two's complement representation
    and arithmetic right shift are assumed (DESIGN.md). *)
From Coq Require Import ZArith Bool.
From Verif Require Import Outcome.
Local Open Scope Z_scope.

Definition int_min : Z := - 2 ^ 31.
Definition int_max : Z := 2 ^ 31 - 1.

Definition in_i32 (z : Z) : bool := (int_min <=? z) && (z <=? int_max).

Definition chk (z : Z) : outcome Z := if in_i32 z then Ret z else Undefined.

Definition i32_add (a b : Z) : outcome Z := chk (a + b).
Definition i32_sub (a b : Z) : outcome Z := chk (a - b).
Definition i32_mul (a b : Z) : outcome Z := chk (a * b).
Definition i32_neg (a : Z) : outcome Z := chk (- a).
(** [a / b] truncates; [a / 0] and [INT_MIN / -1] are undefined. *)
Definition i32_div (a b : Z) : outcome Z :=
  if b =? 0 then Undefined else chk (Z.quot a b).
(** [a % b] is undefined whenever [a / b] is (C++14 [expr.mul]/4). *)
Definition i32_rem (a b : Z) : outcome Z :=
  if b =? 0 then Undefined else
  if in_i32 (Z.quot a b) then Ret (Z.rem a b) else Undefined.
Definition i32_or (a b : Z) : outcome Z := Ret (Z.lor a b).
Definition i32_and (a b : Z) : outcome Z := Ret (Z.land a b).
Definition i32_xor (a b : Z) : outcome Z := Ret (Z.lxor a b).
Definition i32_shr (a b : Z) : outcome Z :=
  if (0 <=? b) && (b <? 32) then Ret (Z.shiftr a b) else Undefined.
(** Conversion of an out-of-range value to [int32_t] (two's complement). *)
Definition wrap32 (z : Z) : Z := (z + 2 ^ 31) mod 2 ^ 32 - 2 ^ 31.
(** C++14 with DR 1457: the left operand must not be negative and the result must
    fit 32 unsigned bits; it is then converted to [int32_t]. *)
Definition i32_shl (a b : Z) : outcome Z :=
  if (0 <=? b) && (b <? 32) && (0 <=? a) && (a * 2 ^ b <? 2 ^ 32)
  then Ret (wrap32 (a * 2 ^ b)) else Undefined.
