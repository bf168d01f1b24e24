(** * Properties: integer and boolean vectors *)

From Coq Require Import ZArith NArith Bool List Lia.
From Verif Require Import Scalar Outcome Types Int32 Spec ModelIVec ModelBVec ModelCommon ModelComp.
From Verif Require Import PfInt.
Import ListNotations.
Local Open Scope Z_scope.


(** C09, ivec2: the exact result in every component, or undefined
    exactly when the int operation is undefined in some component. *)
Theorem C09_ivec2_exact : forall (u v : vec2 Z) (s : Z),
  exact_or_undefined l2 Z.add ok_add (l2 u) (l2 v) (ivec2_add u v) /\
  exact_or_undefined l2 Z.add ok_add (l2 u) (repeat s 2) (ivec2_add_sc u s) /\
  exact_or_undefined l2 Z.add ok_add (repeat s 2) (l2 u) (sc_add_ivec2 s u) /\
  exact_or_undefined l2 Z.sub ok_sub (l2 u) (l2 v) (ivec2_sub u v) /\
  exact_or_undefined l2 Z.sub ok_sub (l2 u) (repeat s 2) (ivec2_sub_sc u s) /\
  exact_or_undefined l2 Z.sub ok_sub (repeat s 2) (l2 u) (sc_sub_ivec2 s u) /\
  exact_or_undefined l2 Z.mul ok_mul (l2 u) (l2 v) (ivec2_mul u v) /\
  exact_or_undefined l2 Z.mul ok_mul (l2 u) (repeat s 2) (ivec2_mul_sc u s) /\
  exact_or_undefined l2 Z.mul ok_mul (repeat s 2) (l2 u) (sc_mul_ivec2 s u) /\
  exact_or_undefined l2 Z.quot ok_div (l2 u) (l2 v) (ivec2_div u v) /\
  exact_or_undefined l2 Z.quot ok_div (l2 u) (repeat s 2) (ivec2_div_sc u s) /\
  exact_or_undefined l2 Z.quot ok_div (repeat s 2) (l2 u) (sc_div_ivec2 s u) /\
  exact_or_undefined l2 Z.rem ok_div (l2 u) (l2 v) (ivec2_rem u v) /\
  exact_or_undefined l2 Z.rem ok_div (l2 u) (repeat s 2) (ivec2_rem_sc u s) /\
  exact_or_undefined l2 Z.rem ok_div (repeat s 2) (l2 u) (sc_rem_ivec2 s u) /\
  exact_or_undefined l2 Z.lor ok_any (l2 u) (l2 v) (ivec2_or u v) /\
  exact_or_undefined l2 Z.lor ok_any (l2 u) (repeat s 2) (ivec2_or_sc u s) /\
  exact_or_undefined l2 Z.lor ok_any (repeat s 2) (l2 u) (sc_or_ivec2 s u) /\
  exact_or_undefined l2 Z.land ok_any (l2 u) (l2 v) (ivec2_and u v) /\
  exact_or_undefined l2 Z.land ok_any (l2 u) (repeat s 2) (ivec2_and_sc u s) /\
  exact_or_undefined l2 Z.land ok_any (repeat s 2) (l2 u) (sc_and_ivec2 s u) /\
  exact_or_undefined l2 Z.lxor ok_any (l2 u) (l2 v) (ivec2_xor u v) /\
  exact_or_undefined l2 Z.lxor ok_any (l2 u) (repeat s 2) (ivec2_xor_sc u s) /\
  exact_or_undefined l2 Z.lxor ok_any (repeat s 2) (l2 u) (sc_xor_ivec2 s u) /\
  exact_or_undefined l2 Z.shiftr ok_shift (l2 u) (l2 v) (ivec2_shr u v) /\
  exact_or_undefined l2 Z.shiftr ok_shift (l2 u) (repeat s 2) (ivec2_shr_sc u s) /\
  exact_or_undefined l2 Z.shiftr ok_shift (repeat s 2) (l2 u) (sc_shr_ivec2 s u) /\
  exact_or_undefined l2 (fun a b => int_of_u32 (a * 2 ^ b)) ok_shl (l2 u) (l2 v) (ivec2_shl u v) /\
  exact_or_undefined l2 (fun a b => int_of_u32 (a * 2 ^ b)) ok_shl (l2 u) (repeat s 2) (ivec2_shl_sc u s) /\
  exact_or_undefined l2 (fun a b => int_of_u32 (a * 2 ^ b)) ok_shl (repeat s 2) (l2 u) (sc_shl_ivec2 s u).
Proof. exact C09_ivec2_exact_pf. Qed.
Print Assumptions C09_ivec2_exact.

(** C09, ivec2: unary minus is exact unless a component is INT_MIN; unary plus is
    the identity. *)
Theorem C09_ivec2_neg : forall u : vec2 Z,
  (Forall ok_neg (l2 u) -> omap l2 (ivec2_neg u) = Ret (map Z.opp (l2 u))) /\
  (~ Forall ok_neg (l2 u) -> ivec2_neg u = Undefined) /\
  ivec2_pos u = u.
Proof. exact C09_ivec2_neg_pf. Qed.
Print Assumptions C09_ivec2_neg.

(** C09, ivec3: the exact result in every component, or undefined
    exactly when the int operation is undefined in some component. *)
Theorem C09_ivec3_exact : forall (u v : vec3 Z) (s : Z),
  exact_or_undefined l3 Z.add ok_add (l3 u) (l3 v) (ivec3_add u v) /\
  exact_or_undefined l3 Z.add ok_add (l3 u) (repeat s 3) (ivec3_add_sc u s) /\
  exact_or_undefined l3 Z.add ok_add (repeat s 3) (l3 u) (sc_add_ivec3 s u) /\
  exact_or_undefined l3 Z.sub ok_sub (l3 u) (l3 v) (ivec3_sub u v) /\
  exact_or_undefined l3 Z.sub ok_sub (l3 u) (repeat s 3) (ivec3_sub_sc u s) /\
  exact_or_undefined l3 Z.sub ok_sub (repeat s 3) (l3 u) (sc_sub_ivec3 s u) /\
  exact_or_undefined l3 Z.mul ok_mul (l3 u) (l3 v) (ivec3_mul u v) /\
  exact_or_undefined l3 Z.mul ok_mul (l3 u) (repeat s 3) (ivec3_mul_sc u s) /\
  exact_or_undefined l3 Z.mul ok_mul (repeat s 3) (l3 u) (sc_mul_ivec3 s u) /\
  exact_or_undefined l3 Z.quot ok_div (l3 u) (l3 v) (ivec3_div u v) /\
  exact_or_undefined l3 Z.quot ok_div (l3 u) (repeat s 3) (ivec3_div_sc u s) /\
  exact_or_undefined l3 Z.quot ok_div (repeat s 3) (l3 u) (sc_div_ivec3 s u) /\
  exact_or_undefined l3 Z.rem ok_div (l3 u) (l3 v) (ivec3_rem u v) /\
  exact_or_undefined l3 Z.rem ok_div (l3 u) (repeat s 3) (ivec3_rem_sc u s) /\
  exact_or_undefined l3 Z.rem ok_div (repeat s 3) (l3 u) (sc_rem_ivec3 s u) /\
  exact_or_undefined l3 Z.lor ok_any (l3 u) (l3 v) (ivec3_or u v) /\
  exact_or_undefined l3 Z.lor ok_any (l3 u) (repeat s 3) (ivec3_or_sc u s) /\
  exact_or_undefined l3 Z.lor ok_any (repeat s 3) (l3 u) (sc_or_ivec3 s u) /\
  exact_or_undefined l3 Z.land ok_any (l3 u) (l3 v) (ivec3_and u v) /\
  exact_or_undefined l3 Z.land ok_any (l3 u) (repeat s 3) (ivec3_and_sc u s) /\
  exact_or_undefined l3 Z.land ok_any (repeat s 3) (l3 u) (sc_and_ivec3 s u) /\
  exact_or_undefined l3 Z.lxor ok_any (l3 u) (l3 v) (ivec3_xor u v) /\
  exact_or_undefined l3 Z.lxor ok_any (l3 u) (repeat s 3) (ivec3_xor_sc u s) /\
  exact_or_undefined l3 Z.lxor ok_any (repeat s 3) (l3 u) (sc_xor_ivec3 s u) /\
  exact_or_undefined l3 Z.shiftr ok_shift (l3 u) (l3 v) (ivec3_shr u v) /\
  exact_or_undefined l3 Z.shiftr ok_shift (l3 u) (repeat s 3) (ivec3_shr_sc u s) /\
  exact_or_undefined l3 Z.shiftr ok_shift (repeat s 3) (l3 u) (sc_shr_ivec3 s u) /\
  exact_or_undefined l3 (fun a b => int_of_u32 (a * 2 ^ b)) ok_shl (l3 u) (l3 v) (ivec3_shl u v) /\
  exact_or_undefined l3 (fun a b => int_of_u32 (a * 2 ^ b)) ok_shl (l3 u) (repeat s 3) (ivec3_shl_sc u s) /\
  exact_or_undefined l3 (fun a b => int_of_u32 (a * 2 ^ b)) ok_shl (repeat s 3) (l3 u) (sc_shl_ivec3 s u).
Proof. exact C09_ivec3_exact_pf. Qed.
Print Assumptions C09_ivec3_exact.

(** C09, ivec3: unary minus is exact unless a component is INT_MIN; unary plus is
    the identity. *)
Theorem C09_ivec3_neg : forall u : vec3 Z,
  (Forall ok_neg (l3 u) -> omap l3 (ivec3_neg u) = Ret (map Z.opp (l3 u))) /\
  (~ Forall ok_neg (l3 u) -> ivec3_neg u = Undefined) /\
  ivec3_pos u = u.
Proof. exact C09_ivec3_neg_pf. Qed.
Print Assumptions C09_ivec3_neg.

(** C09, ivec4 (ivec4 declares but does not define the operators % | & ^ << >>): the exact result in every component, or undefined
    exactly when the int operation is undefined in some component. *)
Theorem C09_ivec4_exact : forall (u v : vec4 Z) (s : Z),
  exact_or_undefined l4 Z.add ok_add (l4 u) (l4 v) (ivec4_add u v) /\
  exact_or_undefined l4 Z.add ok_add (l4 u) (repeat s 4) (ivec4_add_sc u s) /\
  exact_or_undefined l4 Z.add ok_add (repeat s 4) (l4 u) (sc_add_ivec4 s u) /\
  exact_or_undefined l4 Z.sub ok_sub (l4 u) (l4 v) (ivec4_sub u v) /\
  exact_or_undefined l4 Z.sub ok_sub (l4 u) (repeat s 4) (ivec4_sub_sc u s) /\
  exact_or_undefined l4 Z.sub ok_sub (repeat s 4) (l4 u) (sc_sub_ivec4 s u) /\
  exact_or_undefined l4 Z.mul ok_mul (l4 u) (l4 v) (ivec4_mul u v) /\
  exact_or_undefined l4 Z.mul ok_mul (l4 u) (repeat s 4) (ivec4_mul_sc u s) /\
  exact_or_undefined l4 Z.mul ok_mul (repeat s 4) (l4 u) (sc_mul_ivec4 s u) /\
  exact_or_undefined l4 Z.quot ok_div (l4 u) (l4 v) (ivec4_div u v) /\
  exact_or_undefined l4 Z.quot ok_div (l4 u) (repeat s 4) (ivec4_div_sc u s) /\
  exact_or_undefined l4 Z.quot ok_div (repeat s 4) (l4 u) (sc_div_ivec4 s u).
Proof. exact C09_ivec4_exact_pf. Qed.
Print Assumptions C09_ivec4_exact.

(** C09, ivec4: unary minus is exact unless a component is INT_MIN; unary plus is
    the identity. *)
Theorem C09_ivec4_neg : forall u : vec4 Z,
  (Forall ok_neg (l4 u) -> omap l4 (ivec4_neg u) = Ret (map Z.opp (l4 u))) /\
  (~ Forall ok_neg (l4 u) -> ivec4_neg u = Undefined) /\
  ivec4_pos u = u.
Proof. exact C09_ivec4_neg_pf. Qed.
Print Assumptions C09_ivec4_neg.

(** C09: on ints, the bit operations, remainder and shifts stay in range; with the
    range conditions of the other operators every returned component is an int. *)
Theorem C09_bit_results_fit : forall a b, fits a -> fits b ->
  fits (Z.lor a b) /\ fits (Z.land a b) /\ fits (Z.lxor a b) /\
  (ok_shift a b -> fits (Z.shiftr a b)) /\
  (ok_div a b -> fits (Z.rem a b)) /\
  (ok_shl a b -> fits (int_of_u32 (a * 2 ^ b))).
Proof. exact C09_bit_results_fit_pf. Qed.
Print Assumptions C09_bit_results_fit.

Example C09_add_ok : ivec3_add (V3 1 2 3) (V3 10 20 (-30)) = Ret (V3 11 22 (-27)).
Proof. reflexivity. Qed.
Example C09_overflow : ivec2_add (V2 0 2147483647) (V2 0 1) = Undefined.
Proof. reflexivity. Qed.
Example C09_div : ivec2_div (V2 (-7) 7) (V2 2 (-2)) = Ret (V2 (-3) (-3)) /\
  ivec2_rem (V2 (-7) 7) (V2 2 (-2)) = Ret (V2 (-1) 1) /\
  ivec2_div_sc (V2 1 (-2147483648)) (-1) = Undefined /\ ivec2_rem_sc (V2 1 2) 0 = Undefined.
Proof. repeat split; reflexivity. Qed.
Example C09_shift : ivec2_shl_sc (V2 1 3) 31 = Undefined /\ ivec2_shl (V2 1 3) (V2 31 4) = Ret (V2 (-2147483648) 48) /\
  ivec2_shr_sc (V2 (-5) 5) 1 = Ret (V2 (-3) 2).
Proof. repeat split; reflexivity. Qed.


(** C10, ivec2: [<] is the lexicographic order of the components, the other relations
    are derived from it, == is identity, and [<] is a strict total order. *)
Theorem C10_ivec2_order : forall u v w : vec2 Z,
  (ivec2_lt u v = true <-> lex_lt (l2 u) (l2 v)) /\
  (ivec2_gt u v = true <-> lex_lt (l2 v) (l2 u)) /\
  (ivec2_le u v = true <-> lex_lt (l2 u) (l2 v) \/ u = v) /\
  (ivec2_ge u v = true <-> lex_lt (l2 v) (l2 u) \/ u = v) /\
  (ivec2_eq u v = true <-> u = v) /\
  (ivec2_ne u v = true <-> u <> v) /\
  ivec2_lt u u = false /\
  (ivec2_lt u v = true -> ivec2_lt v w = true -> ivec2_lt u w = true) /\
  (ivec2_lt u v = true \/ u = v \/ ivec2_lt v u = true).
Proof. exact C10_ivec2_order_pf. Qed.
Print Assumptions C10_ivec2_order.

(** C10, ivec3: [<] is the lexicographic order of the components, the other relations
    are derived from it, == is identity, and [<] is a strict total order. *)
Theorem C10_ivec3_order : forall u v w : vec3 Z,
  (ivec3_lt u v = true <-> lex_lt (l3 u) (l3 v)) /\
  (ivec3_gt u v = true <-> lex_lt (l3 v) (l3 u)) /\
  (ivec3_le u v = true <-> lex_lt (l3 u) (l3 v) \/ u = v) /\
  (ivec3_ge u v = true <-> lex_lt (l3 v) (l3 u) \/ u = v) /\
  (ivec3_eq u v = true <-> u = v) /\
  (ivec3_ne u v = true <-> u <> v) /\
  ivec3_lt u u = false /\
  (ivec3_lt u v = true -> ivec3_lt v w = true -> ivec3_lt u w = true) /\
  (ivec3_lt u v = true \/ u = v \/ ivec3_lt v u = true).
Proof. exact C10_ivec3_order_pf. Qed.
Print Assumptions C10_ivec3_order.

(** C10, ivec4: [<] is the lexicographic order of the components, the other relations
    are derived from it, == is identity, and [<] is a strict total order. *)
Theorem C10_ivec4_order : forall u v w : vec4 Z,
  (ivec4_lt u v = true <-> lex_lt (l4 u) (l4 v)) /\
  (ivec4_gt u v = true <-> lex_lt (l4 v) (l4 u)) /\
  (ivec4_le u v = true <-> lex_lt (l4 u) (l4 v) \/ u = v) /\
  (ivec4_ge u v = true <-> lex_lt (l4 v) (l4 u) \/ u = v) /\
  (ivec4_eq u v = true <-> u = v) /\
  (ivec4_ne u v = true <-> u <> v) /\
  ivec4_lt u u = false /\
  (ivec4_lt u v = true -> ivec4_lt v w = true -> ivec4_lt u w = true) /\
  (ivec4_lt u v = true \/ u = v \/ ivec4_lt v u = true).
Proof. exact C10_ivec4_order_pf. Qed.
Print Assumptions C10_ivec4_order.

Example C10_ex : ivec3_lt (V3 1 2 3) (V3 1 3 0) = true /\ ivec3_lt (V3 1 3 0) (V3 1 2 3) = false.
Proof. split; reflexivity. Qed.


(** C11, bvec2. *)
Theorem C11_bvec2 : forall (u v : vec2 bool) (s : bool) (k : vec2 Z),
  l2 (bvec2_and u v) = zip andb (l2 u) (l2 v) /\
  l2 (bvec2_and_sc u s) = map (fun a => andb a s) (l2 u) /\
  l2 (sc_and_bvec2 s u) = map (fun a => andb s a) (l2 u) /\
  l2 (bvec2_or u v) = zip orb (l2 u) (l2 v) /\
  l2 (bvec2_or_sc u s) = map (fun a => orb a s) (l2 u) /\
  l2 (sc_or_bvec2 s u) = map (fun a => orb s a) (l2 u) /\
  l2 (bvec2_xor u v) = zip xorb (l2 u) (l2 v) /\
  l2 (bvec2_xor_sc u s) = map (fun a => xorb a s) (l2 u) /\
  l2 (sc_xor_bvec2 s u) = map (fun a => xorb s a) (l2 u) /\
  l2 (bvec2_not u) = map negb (l2 u) /\
  bvec2_not (bvec2_and u v) = bvec2_or (bvec2_not u) (bvec2_not v) /\
  bvec2_not (bvec2_or u v) = bvec2_and (bvec2_not u) (bvec2_not v) /\
  bvec2_xor u v = bvec2_and (bvec2_or u v) (bvec2_not (bvec2_and u v)) /\
  (all2 u = true <-> Forall (fun a => a = true) (l2 u)) /\
  (any2 u = true <-> Exists (fun a => a = true) (l2 u)) /\
  any2 u = negb (all2 (bvec2_not u)) /\
  (bvec2_eq u v = true <-> u = v) /\
  (bvec2_ne u v = true <-> u <> v) /\
  bvec2_eq u v = all2 (bequal2 u v) /\
  bnotEqual2 u v = bvec2_not (bequal2 u v) /\
  bnotEqual2 u v = bvec2_xor u v /\
  Forall2 (fun i b => b = true <-> i <> 0) (l2 k) (l2 (ivec2_to_bvec2 k)).
Proof. exact C11_bvec2_pf. Qed.
Print Assumptions C11_bvec2.

(** C11, bvec3. *)
Theorem C11_bvec3 : forall (u v : vec3 bool) (s : bool) (k : vec3 Z),
  l3 (bvec3_and u v) = zip andb (l3 u) (l3 v) /\
  l3 (bvec3_and_sc u s) = map (fun a => andb a s) (l3 u) /\
  l3 (sc_and_bvec3 s u) = map (fun a => andb s a) (l3 u) /\
  l3 (bvec3_or u v) = zip orb (l3 u) (l3 v) /\
  l3 (bvec3_or_sc u s) = map (fun a => orb a s) (l3 u) /\
  l3 (sc_or_bvec3 s u) = map (fun a => orb s a) (l3 u) /\
  l3 (bvec3_xor u v) = zip xorb (l3 u) (l3 v) /\
  l3 (bvec3_xor_sc u s) = map (fun a => xorb a s) (l3 u) /\
  l3 (sc_xor_bvec3 s u) = map (fun a => xorb s a) (l3 u) /\
  l3 (bvec3_not u) = map negb (l3 u) /\
  bvec3_not (bvec3_and u v) = bvec3_or (bvec3_not u) (bvec3_not v) /\
  bvec3_not (bvec3_or u v) = bvec3_and (bvec3_not u) (bvec3_not v) /\
  bvec3_xor u v = bvec3_and (bvec3_or u v) (bvec3_not (bvec3_and u v)) /\
  (all3 u = true <-> Forall (fun a => a = true) (l3 u)) /\
  (any3 u = true <-> Exists (fun a => a = true) (l3 u)) /\
  any3 u = negb (all3 (bvec3_not u)) /\
  (bvec3_eq u v = true <-> u = v) /\
  (bvec3_ne u v = true <-> u <> v) /\
  bvec3_eq u v = all3 (bequal3 u v) /\
  bnotEqual3 u v = bvec3_not (bequal3 u v) /\
  bnotEqual3 u v = bvec3_xor u v /\
  Forall2 (fun i b => b = true <-> i <> 0) (l3 k) (l3 (ivec3_to_bvec3 k)).
Proof. exact C11_bvec3_pf. Qed.
Print Assumptions C11_bvec3.

(** C11, bvec4. *)
Theorem C11_bvec4 : forall (u v : vec4 bool) (s : bool) (k : vec4 Z),
  l4 (bvec4_and u v) = zip andb (l4 u) (l4 v) /\
  l4 (bvec4_and_sc u s) = map (fun a => andb a s) (l4 u) /\
  l4 (sc_and_bvec4 s u) = map (fun a => andb s a) (l4 u) /\
  l4 (bvec4_or u v) = zip orb (l4 u) (l4 v) /\
  l4 (bvec4_or_sc u s) = map (fun a => orb a s) (l4 u) /\
  l4 (sc_or_bvec4 s u) = map (fun a => orb s a) (l4 u) /\
  l4 (bvec4_xor u v) = zip xorb (l4 u) (l4 v) /\
  l4 (bvec4_xor_sc u s) = map (fun a => xorb a s) (l4 u) /\
  l4 (sc_xor_bvec4 s u) = map (fun a => xorb s a) (l4 u) /\
  l4 (bvec4_not u) = map negb (l4 u) /\
  bvec4_not (bvec4_and u v) = bvec4_or (bvec4_not u) (bvec4_not v) /\
  bvec4_not (bvec4_or u v) = bvec4_and (bvec4_not u) (bvec4_not v) /\
  bvec4_xor u v = bvec4_and (bvec4_or u v) (bvec4_not (bvec4_and u v)) /\
  (all4 u = true <-> Forall (fun a => a = true) (l4 u)) /\
  (any4 u = true <-> Exists (fun a => a = true) (l4 u)) /\
  any4 u = negb (all4 (bvec4_not u)) /\
  (bvec4_eq u v = true <-> u = v) /\
  (bvec4_ne u v = true <-> u <> v) /\
  bvec4_eq u v = all4 (bequal4 u v) /\
  bnotEqual4 u v = bvec4_not (bequal4 u v) /\
  bnotEqual4 u v = bvec4_xor u v /\
  Forall2 (fun i b => b = true <-> i <> 0) (l4 k) (l4 (ivec4_to_bvec4 k)).
Proof. exact C11_bvec4_pf. Qed.
Print Assumptions C11_bvec4.

Example C11_ex : any3 (V3 false true false) = true /\ all3 (V3 true true false) = false /\
  ivec3_to_bvec3 (V3 0 (-4) 1) = V3 false true true.
Proof. repeat split; reflexivity. Qed.


(** C68, scalars: abs is exact except on INT_MIN, where it is undefined; min, max, clamp,
    sign and signNotZero are total and exact. *)
Theorem C68_scalar : forall x y lo hi : Z,
  (fits (Z.abs x) -> abs_i x = Ret (Z.abs x)) /\
  (~ fits (Z.abs x) -> abs_i x = Undefined) /\
  (fits x -> (abs_i x = Undefined <-> x = - 2 ^ 31)) /\
  max_i x y = Z.max x y /\ min_i x y = Z.min x y /\
  (lo <= hi -> lo <= clamp_i x lo hi <= hi) /\
  (lo <= x <= hi -> clamp_i x lo hi = x) /\
  (lo <= hi -> x <= lo -> clamp_i x lo hi = lo) /\ (lo <= hi -> hi <= x -> clamp_i x lo hi = hi) /\
  sign_i x = Z.sgn x /\ sign_i x * Z.abs x = x /\
  (signNotZero_i x = 1 <-> 0 <= x) /\ (signNotZero_i x = -1 <-> x < 0).
Proof. exact C68_scalar_pf. Qed.
Print Assumptions C68_scalar.

(** C68, ivec2. *)
Theorem C68_ivec2 : forall u v w : vec2 Z,
  (Forall (fun a => fits (Z.abs a)) (l2 u) -> omap l2 (iabs2 u) = Ret (map Z.abs (l2 u))) /\
  (~ Forall (fun a => fits (Z.abs a)) (l2 u) -> iabs2 u = Undefined) /\
  l2 (imax2 u v) = zip Z.max (l2 u) (l2 v) /\
  l2 (imin2 u v) = zip Z.min (l2 u) (l2 v) /\
  l2 (iclamp2 u v w) = zip3 (fun x lo hi => Z.min (Z.max x lo) hi) (l2 u) (l2 v) (l2 w) /\
  l2 (isign2 u) = map Z.sgn (l2 u) /\
  l2 (isignNotZero2 u) = map (fun a => if 0 <=? a then 1 else -1) (l2 u) /\
  reduction_exact Z.add (l2 u) (icompAdd2 u) /\
  reduction_exact Z.mul (l2 u) (icompMul2 u) /\
  is_min (icompMin2 u) (l2 u) /\
  is_max (icompMax2 u) (l2 u).
Proof. exact C68_ivec2_pf. Qed.
Print Assumptions C68_ivec2.

(** C68, ivec3. *)
Theorem C68_ivec3 : forall u v w : vec3 Z,
  (Forall (fun a => fits (Z.abs a)) (l3 u) -> omap l3 (iabs3 u) = Ret (map Z.abs (l3 u))) /\
  (~ Forall (fun a => fits (Z.abs a)) (l3 u) -> iabs3 u = Undefined) /\
  l3 (imax3 u v) = zip Z.max (l3 u) (l3 v) /\
  l3 (imin3 u v) = zip Z.min (l3 u) (l3 v) /\
  l3 (iclamp3 u v w) = zip3 (fun x lo hi => Z.min (Z.max x lo) hi) (l3 u) (l3 v) (l3 w) /\
  l3 (isign3 u) = map Z.sgn (l3 u) /\
  l3 (isignNotZero3 u) = map (fun a => if 0 <=? a then 1 else -1) (l3 u) /\
  reduction_exact Z.add (l3 u) (icompAdd3 u) /\
  reduction_exact Z.mul (l3 u) (icompMul3 u) /\
  is_min (icompMin3 u) (l3 u) /\
  is_max (icompMax3 u) (l3 u).
Proof. exact C68_ivec3_pf. Qed.
Print Assumptions C68_ivec3.

(** C68, ivec4. *)
Theorem C68_ivec4 : forall u v w : vec4 Z,
  (Forall (fun a => fits (Z.abs a)) (l4 u) -> omap l4 (iabs4 u) = Ret (map Z.abs (l4 u))) /\
  (~ Forall (fun a => fits (Z.abs a)) (l4 u) -> iabs4 u = Undefined) /\
  l4 (imax4 u v) = zip Z.max (l4 u) (l4 v) /\
  l4 (imin4 u v) = zip Z.min (l4 u) (l4 v) /\
  l4 (iclamp4 u v w) = zip3 (fun x lo hi => Z.min (Z.max x lo) hi) (l4 u) (l4 v) (l4 w) /\
  l4 (isign4 u) = map Z.sgn (l4 u) /\
  l4 (isignNotZero4 u) = map (fun a => if 0 <=? a then 1 else -1) (l4 u) /\
  reduction_exact Z.add (l4 u) (icompAdd4 u) /\
  reduction_exact Z.mul (l4 u) (icompMul4 u) /\
  is_min (icompMin4 u) (l4 u) /\
  is_max (icompMax4 u) (l4 u).
Proof. exact C68_ivec4_pf. Qed.
Print Assumptions C68_ivec4.

Example C68_ex : iabs3 (V3 (-5) 0 7) = Ret (V3 5 0 7) /\ iabs2 (V2 0 (-2147483648)) = Undefined /\
  icompAdd3 (V3 2147483647 1 (-5)) = Undefined /\ icompAdd3 (V3 2147483647 (-5) 1) = Ret 2147483643.
Proof. repeat split; reflexivity. Qed.
