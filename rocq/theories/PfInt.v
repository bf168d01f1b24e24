(** * Proofs: integer and boolean vectors *)
From Coq Require Import ZArith NArith Bool List Lia.
From Verif Require Import Scalar Outcome Types Int32 Spec ModelIVec ModelBVec ModelCommon ModelComp.
Import ListNotations.
Local Open Scope Z_scope.
(*HEADER END*)

Ltac ands := repeat match goal with |- _ /\ _ => split end.

(** What one int operation must satisfy for the vector operators to be exact. *)
Definition opspec (f : Z -> Z -> outcome Z) (op : Z -> Z -> Z) (ok : Z -> Z -> Prop) : Prop :=
  forall a b, (ok a b /\ f a b = Ret (op a b)) \/ (~ ok a b /\ f a b = Undefined).

Lemma chk_spec z : (fits z /\ chk z = Ret z) \/ (~ fits z /\ chk z = Undefined).
Proof.
  unfold chk, in_i32, fits, int_min, int_max.
  destruct (Z.leb_spec (- 2 ^ 31) z), (Z.leb_spec z (2 ^ 31 - 1)); cbn [andb]; intuition lia.
Qed.

Lemma add_spec : opspec i32_add Z.add ok_add.
Proof. intros a b; apply chk_spec. Qed.
Lemma sub_spec : opspec i32_sub Z.sub ok_sub.
Proof. intros a b; apply chk_spec. Qed.
Lemma mul_spec : opspec i32_mul Z.mul ok_mul.
Proof. intros a b; apply chk_spec. Qed.
Lemma div_spec : opspec i32_div Z.quot ok_div.
Proof.
  intros a b; unfold i32_div, ok_div. destruct (Z.eqb_spec b 0); [right; intuition|].
  destruct (chk_spec (Z.quot a b)) as [[]|[]]; [left|right]; intuition.
Qed.
Lemma rem_spec : opspec i32_rem Z.rem ok_div.
Proof.
  intros a b; unfold i32_rem, ok_div. destruct (Z.eqb_spec b 0); [right; intuition|].
  pose proof (chk_spec (Z.quot a b)) as H; unfold chk in H.
  destruct (in_i32 (Z.quot a b)); destruct H as [[H1 H2]|[H1 H2]]; try discriminate H2;
    [left|right]; intuition.
Qed.
Lemma or_spec : opspec i32_or Z.lor ok_any.
Proof. intros a b; left; split; [exact I|reflexivity]. Qed.
Lemma and_spec : opspec i32_and Z.land ok_any.
Proof. intros a b; left; split; [exact I|reflexivity]. Qed.
Lemma xor_spec : opspec i32_xor Z.lxor ok_any.
Proof. intros a b; left; split; [exact I|reflexivity]. Qed.
Lemma shr_spec : opspec i32_shr Z.shiftr ok_shift.
Proof.
  intros a b; unfold i32_shr, ok_shift.
  destruct (Z.leb_spec 0 b), (Z.ltb_spec b 32); cbn [andb]; [left|right..]; split; trivial; lia.
Qed.
Lemma wrap32_u32 z : 0 <= z < 2 ^ 32 -> wrap32 z = int_of_u32 z.
Proof.
  intros H; unfold wrap32, int_of_u32.
  destruct (Z.ltb_spec z (2 ^ 31)).
  - rewrite Z.mod_small by lia. lia.
  - replace (z + 2 ^ 31) with ((z - 2 ^ 31) + 1 * 2 ^ 32) by lia.
    rewrite Z.mod_add by lia. rewrite Z.mod_small by lia. lia.
Qed.
Lemma shl_spec : opspec i32_shl (fun a b => int_of_u32 (a * 2 ^ b)) ok_shl.
Proof.
  intros a b; unfold i32_shl, ok_shl.
  destruct (Z.leb_spec 0 b), (Z.ltb_spec b 32), (Z.leb_spec 0 a), (Z.ltb_spec (a * 2 ^ b) (2 ^ 32));
    cbn [andb]; try (right; split; trivial; lia).
  left; split; [lia|]. f_equal. apply wrap32_u32. split; [|assumption].
  apply Z.mul_nonneg_nonneg; [assumption|]. apply Z.pow_nonneg; lia.
Qed.
Lemma neg_spec a : (ok_neg a /\ i32_neg a = Ret (- a)) \/ (~ ok_neg a /\ i32_neg a = Undefined).
Proof. apply chk_spec. Qed.

Ltac eou_step H :=
  match goal with |- context [bind (?f ?a ?b) _] =>
    let K := fresh in let E := fresh in
    destruct (H a b) as [[K E]|[K E]]; rewrite E; cbn [bind omap] end.
Ltac inv2 := repeat match goal with H : Forall2 _ (_ :: _) (_ :: _) |- _ => inversion_clear H end.
Ltac eou H :=
  intros u v; repeat match goal with w : vec2 Z |- _ => destruct w as [?e ?e] | w : vec3 Z |- _ => destruct w as [?e ?e ?e] | w : vec4 Z |- _ => destruct w as [?e ?e ?e ?e] end;
  unfold exact_or_undefined; cbv [l2 l3 l4 x2 y2 x3 y3 z3 x4 y4 z4 w4 repeat zip];
  repeat eou_step H;
  (split; intros HF;
   [ try (exfalso; inv2; contradiction); reflexivity
   | try reflexivity; exfalso; apply HF; repeat (constructor; trivial) ]).

Lemma IMPL_IV2_IV2_BINOP_spec f op ok : opspec f op ok -> forall (u : vec2 Z) (v : vec2 Z),
  exact_or_undefined l2 op ok (l2 u) (l2 v) (IMPL_IV2_IV2_BINOP f u v).
Proof.
  intros H; unfold IMPL_IV2_IV2_BINOP; eou H.
Qed.

Lemma IMPL_IV2_SC_BINOP_spec f op ok : opspec f op ok -> forall (u : vec2 Z) (v : Z),
  exact_or_undefined l2 op ok (l2 u) (repeat v 2) (IMPL_IV2_SC_BINOP f u v).
Proof.
  intros H; unfold IMPL_IV2_SC_BINOP; eou H.
Qed.

Lemma IMPL_SC_IV2_BINOP_spec f op ok : opspec f op ok -> forall (u : Z) (v : vec2 Z),
  exact_or_undefined l2 op ok (repeat u 2) (l2 v) (IMPL_SC_IV2_BINOP f u v).
Proof.
  intros H; unfold IMPL_SC_IV2_BINOP; eou H.
Qed.

Lemma IMPL_IV3_IV3_BINOP_spec f op ok : opspec f op ok -> forall (u : vec3 Z) (v : vec3 Z),
  exact_or_undefined l3 op ok (l3 u) (l3 v) (IMPL_IV3_IV3_BINOP f u v).
Proof.
  intros H; unfold IMPL_IV3_IV3_BINOP; eou H.
Qed.

Lemma IMPL_IV3_SC_BINOP_spec f op ok : opspec f op ok -> forall (u : vec3 Z) (v : Z),
  exact_or_undefined l3 op ok (l3 u) (repeat v 3) (IMPL_IV3_SC_BINOP f u v).
Proof.
  intros H; unfold IMPL_IV3_SC_BINOP; eou H.
Qed.

Lemma IMPL_SC_IV3_BINOP_spec f op ok : opspec f op ok -> forall (u : Z) (v : vec3 Z),
  exact_or_undefined l3 op ok (repeat u 3) (l3 v) (IMPL_SC_IV3_BINOP f u v).
Proof.
  intros H; unfold IMPL_SC_IV3_BINOP; eou H.
Qed.

Lemma IMPL_IV4_IV4_BINOP_spec f op ok : opspec f op ok -> forall (u : vec4 Z) (v : vec4 Z),
  exact_or_undefined l4 op ok (l4 u) (l4 v) (IMPL_IV4_IV4_BINOP f u v).
Proof.
  intros H; unfold IMPL_IV4_IV4_BINOP; eou H.
Qed.

Lemma IMPL_IV4_SC_BINOP_spec f op ok : opspec f op ok -> forall (u : vec4 Z) (v : Z),
  exact_or_undefined l4 op ok (l4 u) (repeat v 4) (IMPL_IV4_SC_BINOP f u v).
Proof.
  intros H; unfold IMPL_IV4_SC_BINOP; eou H.
Qed.

Lemma IMPL_SC_IV4_BINOP_spec f op ok : opspec f op ok -> forall (u : Z) (v : vec4 Z),
  exact_or_undefined l4 op ok (repeat u 4) (l4 v) (IMPL_SC_IV4_BINOP f u v).
Proof.
  intros H; unfold IMPL_SC_IV4_BINOP; eou H.
Qed.

(** C09, ivec2: the exact result in every component, or undefined
    exactly when the int operation is undefined in some component. *)
Lemma C09_ivec2_exact_pf : forall (u v : vec2 Z) (s : Z),
  exact_or_undefined l2 Z.add ok_add (l2 u) (l2 v) (ivec2_add u v) /\
  exact_or_undefined l2 Z.add ok_add (l2 u) (repeat s 2) (ivec2_add_sc u s) /\
  exact_or_undefined l2 Z.add ok_add (repeat s 2) (l2 u) (sc_add_ivec2 s u) /\
  exact_or_undefined l2 Z.sub ok_sub (l2 u) (l2 v) (ivec2_sub u v) /\
  exact_or_undefined l2 Z.sub ok_sub (l2 u) (repeat s 2) (ivec2_sub_sc u s) /\
  exact_or_undefined l2 Z.sub ok_sub (repeat s 2) (l2 u) (sc_sub_ivec2 s u) /\
  exact_or_undefined l2 Z.mul ok_mul (l2 u) (l2 v) (ivec2_mul u v) /\
  exact_or_undefined l2 Z.mul ok_mul (l2 u) (repeat s 2) (ivec2_mul_sc u s) /\
  exact_or_undefined l2 Z.mul ok_mul (repeat s 2) (l2 u) (sc_mul_ivec2 s u) /\
  exact_or_undefined l2 Z.quot ok_div (l2 u) (l2 v) (ivec2_div u v) /\
  exact_or_undefined l2 Z.quot ok_div (l2 u) (repeat s 2) (ivec2_div_sc u s) /\
  exact_or_undefined l2 Z.quot ok_div (repeat s 2) (l2 u) (sc_div_ivec2 s u) /\
  exact_or_undefined l2 Z.rem ok_div (l2 u) (l2 v) (ivec2_rem u v) /\
  exact_or_undefined l2 Z.rem ok_div (l2 u) (repeat s 2) (ivec2_rem_sc u s) /\
  exact_or_undefined l2 Z.rem ok_div (repeat s 2) (l2 u) (sc_rem_ivec2 s u) /\
  exact_or_undefined l2 Z.lor ok_any (l2 u) (l2 v) (ivec2_or u v) /\
  exact_or_undefined l2 Z.lor ok_any (l2 u) (repeat s 2) (ivec2_or_sc u s) /\
  exact_or_undefined l2 Z.lor ok_any (repeat s 2) (l2 u) (sc_or_ivec2 s u) /\
  exact_or_undefined l2 Z.land ok_any (l2 u) (l2 v) (ivec2_and u v) /\
  exact_or_undefined l2 Z.land ok_any (l2 u) (repeat s 2) (ivec2_and_sc u s) /\
  exact_or_undefined l2 Z.land ok_any (repeat s 2) (l2 u) (sc_and_ivec2 s u) /\
  exact_or_undefined l2 Z.lxor ok_any (l2 u) (l2 v) (ivec2_xor u v) /\
  exact_or_undefined l2 Z.lxor ok_any (l2 u) (repeat s 2) (ivec2_xor_sc u s) /\
  exact_or_undefined l2 Z.lxor ok_any (repeat s 2) (l2 u) (sc_xor_ivec2 s u) /\
  exact_or_undefined l2 Z.shiftr ok_shift (l2 u) (l2 v) (ivec2_shr u v) /\
  exact_or_undefined l2 Z.shiftr ok_shift (l2 u) (repeat s 2) (ivec2_shr_sc u s) /\
  exact_or_undefined l2 Z.shiftr ok_shift (repeat s 2) (l2 u) (sc_shr_ivec2 s u) /\
  exact_or_undefined l2 (fun a b => int_of_u32 (a * 2 ^ b)) ok_shl (l2 u) (l2 v) (ivec2_shl u v) /\
  exact_or_undefined l2 (fun a b => int_of_u32 (a * 2 ^ b)) ok_shl (l2 u) (repeat s 2) (ivec2_shl_sc u s) /\
  exact_or_undefined l2 (fun a b => int_of_u32 (a * 2 ^ b)) ok_shl (repeat s 2) (l2 u) (sc_shl_ivec2 s u).
Proof.
  intros. ands.
  - apply IMPL_IV2_IV2_BINOP_spec, add_spec.
  - apply IMPL_IV2_SC_BINOP_spec, add_spec.
  - apply IMPL_SC_IV2_BINOP_spec, add_spec.
  - apply IMPL_IV2_IV2_BINOP_spec, sub_spec.
  - apply IMPL_IV2_SC_BINOP_spec, sub_spec.
  - apply IMPL_SC_IV2_BINOP_spec, sub_spec.
  - apply IMPL_IV2_IV2_BINOP_spec, mul_spec.
  - apply IMPL_IV2_SC_BINOP_spec, mul_spec.
  - apply IMPL_SC_IV2_BINOP_spec, mul_spec.
  - apply IMPL_IV2_IV2_BINOP_spec, div_spec.
  - apply IMPL_IV2_SC_BINOP_spec, div_spec.
  - apply IMPL_SC_IV2_BINOP_spec, div_spec.
  - apply IMPL_IV2_IV2_BINOP_spec, rem_spec.
  - apply IMPL_IV2_SC_BINOP_spec, rem_spec.
  - apply IMPL_SC_IV2_BINOP_spec, rem_spec.
  - apply IMPL_IV2_IV2_BINOP_spec, or_spec.
  - apply IMPL_IV2_SC_BINOP_spec, or_spec.
  - apply IMPL_SC_IV2_BINOP_spec, or_spec.
  - apply IMPL_IV2_IV2_BINOP_spec, and_spec.
  - apply IMPL_IV2_SC_BINOP_spec, and_spec.
  - apply IMPL_SC_IV2_BINOP_spec, and_spec.
  - apply IMPL_IV2_IV2_BINOP_spec, xor_spec.
  - apply IMPL_IV2_SC_BINOP_spec, xor_spec.
  - apply IMPL_SC_IV2_BINOP_spec, xor_spec.
  - apply IMPL_IV2_IV2_BINOP_spec, shr_spec.
  - apply IMPL_IV2_SC_BINOP_spec, shr_spec.
  - apply IMPL_SC_IV2_BINOP_spec, shr_spec.
  - apply IMPL_IV2_IV2_BINOP_spec, shl_spec.
  - apply IMPL_IV2_SC_BINOP_spec, shl_spec.
  - apply IMPL_SC_IV2_BINOP_spec, shl_spec.
Qed.

(** C09, ivec2: unary minus is exact unless a component is INT_MIN; unary plus is
    the identity. *)
Lemma C09_ivec2_neg_pf : forall u : vec2 Z,
  (Forall ok_neg (l2 u) -> omap l2 (ivec2_neg u) = Ret (map Z.opp (l2 u))) /\
  (~ Forall ok_neg (l2 u) -> ivec2_neg u = Undefined) /\
  ivec2_pos u = u.
Proof.
  intros u; unfold ivec2_neg; destruct u as [?e ?e]; cbv [l2 l3 l4 x2 y2 x3 y3 z3 x4 y4 z4 w4 map].
  repeat match goal with |- context [bind (i32_neg ?a) _] =>
    let K := fresh in let E := fresh in
    destruct (neg_spec a) as [[K E]|[K E]]; rewrite E; cbn [bind omap] end;
  (split; [|split]; [intros HF|intros HF|reflexivity];
   [ try (exfalso; repeat match goal with H : Forall _ (_ :: _) |- _ => inversion_clear H end; contradiction); reflexivity
   | try reflexivity; exfalso; apply HF; repeat (constructor; trivial) ]).
Qed.

(** C09, ivec3: the exact result in every component, or undefined
    exactly when the int operation is undefined in some component. *)
Lemma C09_ivec3_exact_pf : forall (u v : vec3 Z) (s : Z),
  exact_or_undefined l3 Z.add ok_add (l3 u) (l3 v) (ivec3_add u v) /\
  exact_or_undefined l3 Z.add ok_add (l3 u) (repeat s 3) (ivec3_add_sc u s) /\
  exact_or_undefined l3 Z.add ok_add (repeat s 3) (l3 u) (sc_add_ivec3 s u) /\
  exact_or_undefined l3 Z.sub ok_sub (l3 u) (l3 v) (ivec3_sub u v) /\
  exact_or_undefined l3 Z.sub ok_sub (l3 u) (repeat s 3) (ivec3_sub_sc u s) /\
  exact_or_undefined l3 Z.sub ok_sub (repeat s 3) (l3 u) (sc_sub_ivec3 s u) /\
  exact_or_undefined l3 Z.mul ok_mul (l3 u) (l3 v) (ivec3_mul u v) /\
  exact_or_undefined l3 Z.mul ok_mul (l3 u) (repeat s 3) (ivec3_mul_sc u s) /\
  exact_or_undefined l3 Z.mul ok_mul (repeat s 3) (l3 u) (sc_mul_ivec3 s u) /\
  exact_or_undefined l3 Z.quot ok_div (l3 u) (l3 v) (ivec3_div u v) /\
  exact_or_undefined l3 Z.quot ok_div (l3 u) (repeat s 3) (ivec3_div_sc u s) /\
  exact_or_undefined l3 Z.quot ok_div (repeat s 3) (l3 u) (sc_div_ivec3 s u) /\
  exact_or_undefined l3 Z.rem ok_div (l3 u) (l3 v) (ivec3_rem u v) /\
  exact_or_undefined l3 Z.rem ok_div (l3 u) (repeat s 3) (ivec3_rem_sc u s) /\
  exact_or_undefined l3 Z.rem ok_div (repeat s 3) (l3 u) (sc_rem_ivec3 s u) /\
  exact_or_undefined l3 Z.lor ok_any (l3 u) (l3 v) (ivec3_or u v) /\
  exact_or_undefined l3 Z.lor ok_any (l3 u) (repeat s 3) (ivec3_or_sc u s) /\
  exact_or_undefined l3 Z.lor ok_any (repeat s 3) (l3 u) (sc_or_ivec3 s u) /\
  exact_or_undefined l3 Z.land ok_any (l3 u) (l3 v) (ivec3_and u v) /\
  exact_or_undefined l3 Z.land ok_any (l3 u) (repeat s 3) (ivec3_and_sc u s) /\
  exact_or_undefined l3 Z.land ok_any (repeat s 3) (l3 u) (sc_and_ivec3 s u) /\
  exact_or_undefined l3 Z.lxor ok_any (l3 u) (l3 v) (ivec3_xor u v) /\
  exact_or_undefined l3 Z.lxor ok_any (l3 u) (repeat s 3) (ivec3_xor_sc u s) /\
  exact_or_undefined l3 Z.lxor ok_any (repeat s 3) (l3 u) (sc_xor_ivec3 s u) /\
  exact_or_undefined l3 Z.shiftr ok_shift (l3 u) (l3 v) (ivec3_shr u v) /\
  exact_or_undefined l3 Z.shiftr ok_shift (l3 u) (repeat s 3) (ivec3_shr_sc u s) /\
  exact_or_undefined l3 Z.shiftr ok_shift (repeat s 3) (l3 u) (sc_shr_ivec3 s u) /\
  exact_or_undefined l3 (fun a b => int_of_u32 (a * 2 ^ b)) ok_shl (l3 u) (l3 v) (ivec3_shl u v) /\
  exact_or_undefined l3 (fun a b => int_of_u32 (a * 2 ^ b)) ok_shl (l3 u) (repeat s 3) (ivec3_shl_sc u s) /\
  exact_or_undefined l3 (fun a b => int_of_u32 (a * 2 ^ b)) ok_shl (repeat s 3) (l3 u) (sc_shl_ivec3 s u).
Proof.
  intros. ands.
  - apply IMPL_IV3_IV3_BINOP_spec, add_spec.
  - apply IMPL_IV3_SC_BINOP_spec, add_spec.
  - apply IMPL_SC_IV3_BINOP_spec, add_spec.
  - apply IMPL_IV3_IV3_BINOP_spec, sub_spec.
  - apply IMPL_IV3_SC_BINOP_spec, sub_spec.
  - apply IMPL_SC_IV3_BINOP_spec, sub_spec.
  - apply IMPL_IV3_IV3_BINOP_spec, mul_spec.
  - apply IMPL_IV3_SC_BINOP_spec, mul_spec.
  - apply IMPL_SC_IV3_BINOP_spec, mul_spec.
  - apply IMPL_IV3_IV3_BINOP_spec, div_spec.
  - apply IMPL_IV3_SC_BINOP_spec, div_spec.
  - apply IMPL_SC_IV3_BINOP_spec, div_spec.
  - apply IMPL_IV3_IV3_BINOP_spec, rem_spec.
  - apply IMPL_IV3_SC_BINOP_spec, rem_spec.
  - apply IMPL_SC_IV3_BINOP_spec, rem_spec.
  - apply IMPL_IV3_IV3_BINOP_spec, or_spec.
  - apply IMPL_IV3_SC_BINOP_spec, or_spec.
  - apply IMPL_SC_IV3_BINOP_spec, or_spec.
  - apply IMPL_IV3_IV3_BINOP_spec, and_spec.
  - apply IMPL_IV3_SC_BINOP_spec, and_spec.
  - apply IMPL_SC_IV3_BINOP_spec, and_spec.
  - apply IMPL_IV3_IV3_BINOP_spec, xor_spec.
  - apply IMPL_IV3_SC_BINOP_spec, xor_spec.
  - apply IMPL_SC_IV3_BINOP_spec, xor_spec.
  - apply IMPL_IV3_IV3_BINOP_spec, shr_spec.
  - apply IMPL_IV3_SC_BINOP_spec, shr_spec.
  - apply IMPL_SC_IV3_BINOP_spec, shr_spec.
  - apply IMPL_IV3_IV3_BINOP_spec, shl_spec.
  - apply IMPL_IV3_SC_BINOP_spec, shl_spec.
  - apply IMPL_SC_IV3_BINOP_spec, shl_spec.
Qed.

(** C09, ivec3: unary minus is exact unless a component is INT_MIN; unary plus is
    the identity. *)
Lemma C09_ivec3_neg_pf : forall u : vec3 Z,
  (Forall ok_neg (l3 u) -> omap l3 (ivec3_neg u) = Ret (map Z.opp (l3 u))) /\
  (~ Forall ok_neg (l3 u) -> ivec3_neg u = Undefined) /\
  ivec3_pos u = u.
Proof.
  intros u; unfold ivec3_neg; destruct u as [?e ?e ?e]; cbv [l2 l3 l4 x2 y2 x3 y3 z3 x4 y4 z4 w4 map].
  repeat match goal with |- context [bind (i32_neg ?a) _] =>
    let K := fresh in let E := fresh in
    destruct (neg_spec a) as [[K E]|[K E]]; rewrite E; cbn [bind omap] end;
  (split; [|split]; [intros HF|intros HF|reflexivity];
   [ try (exfalso; repeat match goal with H : Forall _ (_ :: _) |- _ => inversion_clear H end; contradiction); reflexivity
   | try reflexivity; exfalso; apply HF; repeat (constructor; trivial) ]).
Qed.

(** C09, ivec4 (ivec4 declares but does not define the operators % | & ^ << >>): the exact result in every component, or undefined
    exactly when the int operation is undefined in some component. *)
Lemma C09_ivec4_exact_pf : forall (u v : vec4 Z) (s : Z),
  exact_or_undefined l4 Z.add ok_add (l4 u) (l4 v) (ivec4_add u v) /\
  exact_or_undefined l4 Z.add ok_add (l4 u) (repeat s 4) (ivec4_add_sc u s) /\
  exact_or_undefined l4 Z.add ok_add (repeat s 4) (l4 u) (sc_add_ivec4 s u) /\
  exact_or_undefined l4 Z.sub ok_sub (l4 u) (l4 v) (ivec4_sub u v) /\
  exact_or_undefined l4 Z.sub ok_sub (l4 u) (repeat s 4) (ivec4_sub_sc u s) /\
  exact_or_undefined l4 Z.sub ok_sub (repeat s 4) (l4 u) (sc_sub_ivec4 s u) /\
  exact_or_undefined l4 Z.mul ok_mul (l4 u) (l4 v) (ivec4_mul u v) /\
  exact_or_undefined l4 Z.mul ok_mul (l4 u) (repeat s 4) (ivec4_mul_sc u s) /\
  exact_or_undefined l4 Z.mul ok_mul (repeat s 4) (l4 u) (sc_mul_ivec4 s u) /\
  exact_or_undefined l4 Z.quot ok_div (l4 u) (l4 v) (ivec4_div u v) /\
  exact_or_undefined l4 Z.quot ok_div (l4 u) (repeat s 4) (ivec4_div_sc u s) /\
  exact_or_undefined l4 Z.quot ok_div (repeat s 4) (l4 u) (sc_div_ivec4 s u).
Proof.
  intros. ands.
  - apply IMPL_IV4_IV4_BINOP_spec, add_spec.
  - apply IMPL_IV4_SC_BINOP_spec, add_spec.
  - apply IMPL_SC_IV4_BINOP_spec, add_spec.
  - apply IMPL_IV4_IV4_BINOP_spec, sub_spec.
  - apply IMPL_IV4_SC_BINOP_spec, sub_spec.
  - apply IMPL_SC_IV4_BINOP_spec, sub_spec.
  - apply IMPL_IV4_IV4_BINOP_spec, mul_spec.
  - apply IMPL_IV4_SC_BINOP_spec, mul_spec.
  - apply IMPL_SC_IV4_BINOP_spec, mul_spec.
  - apply IMPL_IV4_IV4_BINOP_spec, div_spec.
  - apply IMPL_IV4_SC_BINOP_spec, div_spec.
  - apply IMPL_SC_IV4_BINOP_spec, div_spec.
Qed.

(** C09, ivec4: unary minus is exact unless a component is INT_MIN; unary plus is
    the identity. *)
Lemma C09_ivec4_neg_pf : forall u : vec4 Z,
  (Forall ok_neg (l4 u) -> omap l4 (ivec4_neg u) = Ret (map Z.opp (l4 u))) /\
  (~ Forall ok_neg (l4 u) -> ivec4_neg u = Undefined) /\
  ivec4_pos u = u.
Proof.
  intros u; unfold ivec4_neg; destruct u as [?e ?e ?e ?e]; cbv [l2 l3 l4 x2 y2 x3 y3 z3 x4 y4 z4 w4 map].
  repeat match goal with |- context [bind (i32_neg ?a) _] =>
    let K := fresh in let E := fresh in
    destruct (neg_spec a) as [[K E]|[K E]]; rewrite E; cbn [bind omap] end;
  (split; [|split]; [intros HF|intros HF|reflexivity];
   [ try (exfalso; repeat match goal with H : Forall _ (_ :: _) |- _ => inversion_clear H end; contradiction); reflexivity
   | try reflexivity; exfalso; apply HF; repeat (constructor; trivial) ]).
Qed.

Lemma fits_shiftr z : fits z <-> (Z.shiftr z 31 = 0 \/ Z.shiftr z 31 = -1).
Proof.
  unfold fits. rewrite Z.shiftr_div_pow2 by lia.
  pose proof (Z.div_mod z (2 ^ 31)). pose proof (Z.mod_pos_bound z (2 ^ 31)).
  change (2 ^ 31) with 2147483648 in *. lia.
Qed.
Lemma bit_range (f : Z -> Z -> Z) (a b : Z) :
  (forall x y n, Z.shiftr (f x y) n = f (Z.shiftr x n) (Z.shiftr y n)) ->
  (forall x y, (x = 0 \/ x = -1) -> (y = 0 \/ y = -1) -> f x y = 0 \/ f x y = -1) ->
  fits a -> fits b -> fits (f a b).
Proof.
  intros Hs Hf Ha Hb. rewrite fits_shiftr in *. rewrite Hs. now apply Hf.
Qed.
(** C09: on ints, the bit operations, remainder and shifts stay in range; with the
    range conditions of the other operators every returned component is an int. *)
Lemma C09_bit_results_fit_pf : forall a b, fits a -> fits b ->
  fits (Z.lor a b) /\ fits (Z.land a b) /\ fits (Z.lxor a b) /\
  (ok_shift a b -> fits (Z.shiftr a b)) /\
  (ok_div a b -> fits (Z.rem a b)) /\
  (ok_shl a b -> fits (int_of_u32 (a * 2 ^ b))).
Proof.
  intros a b Ha Hb. repeat split.
  all: try (apply bit_range; trivial; first
    [ intros; apply Z.shiftr_lor | intros; apply Z.shiftr_land | intros; apply Z.shiftr_lxor
    | intros x y [->| ->] [->| ->]; cbn; auto ]).
  all: unfold fits, ok_shift, ok_div, ok_shl in *.
  1,2: rewrite Z.shiftr_div_pow2 by lia; assert (1 <= 2 ^ b) by (apply (Z.pow_le_mono_r 2 0 b); lia);
    pose proof (Z.div_mod a (2 ^ b) ltac:(lia)); pose proof (Z.mod_pos_bound a (2 ^ b) ltac:(lia)); nia.
  1,2: destruct H as [Hb0 _]; pose proof (Z.rem_bound_abs a b Hb0); lia.
  all: destruct H as [H1 [H2 H3]]; assert (0 <= a * 2 ^ b) by (apply Z.mul_nonneg_nonneg; [lia|apply Z.pow_nonneg; lia]);
    unfold int_of_u32; destruct (Z.ltb_spec (a * 2 ^ b) (2 ^ 31)); lia.
Qed.

(*PROPS
Example C09_add_ok : ivec3_add (V3 1 2 3) (V3 10 20 (-30)) = Ret (V3 11 22 (-27)).
Proof. reflexivity. Qed.
Example C09_overflow : ivec2_add (V2 0 2147483647) (V2 0 1) = Undefined.
Proof. reflexivity. Qed.
Example C09_div : ivec2_div (V2 (-7) 7) (V2 2 (-2)) = Ret (V2 (-3) (-3)) /\
  ivec2_rem (V2 (-7) 7) (V2 2 (-2)) = Ret (V2 (-1) 1) /\
  ivec2_div_sc (V2 1 (-2147483648)) (-1) = Undefined /\ ivec2_rem_sc (V2 1 2) 0 = Undefined.
Proof. repeat split; reflexivity. Qed.
Example C09_shift : ivec2_shl_sc (V2 1 3) 31 = Undefined /\ ivec2_shl (V2 1 3) (V2 31 4) = Ret (V2 (-2147483648) 48) /\
  ivec2_shr_sc (V2 (-5) 5) 1 = Ret (V2 (-3) 2).
Proof. repeat split; reflexivity. Qed.

PROPS*)
Lemma ivec2_lt_lex : forall u v : vec2 Z, ivec2_lt u v = true <-> lex_lt (l2 u) (l2 v).
Proof.
  intros [?e ?e] [?e ?e]; unfold ivec2_lt; cbv [l2 lex_lt x2 y2  ].
  repeat match goal with
  | |- context [Z.ltb ?a ?b] => destruct (Z.ltb_spec a b)
  | |- context [Z.gtb ?a ?b] => rewrite (Z.gtb_ltb a b)
  end; intuition (try congruence; try lia).
Qed.

Lemma ivec3_lt_lex : forall u v : vec3 Z, ivec3_lt u v = true <-> lex_lt (l3 u) (l3 v).
Proof.
  intros [?e ?e ?e] [?e ?e ?e]; unfold ivec3_lt; cbv [l3 lex_lt x3 y3 z3 ].
  repeat match goal with
  | |- context [Z.ltb ?a ?b] => destruct (Z.ltb_spec a b)
  | |- context [Z.gtb ?a ?b] => rewrite (Z.gtb_ltb a b)
  end; intuition (try congruence; try lia).
Qed.

Lemma ivec4_lt_lex : forall u v : vec4 Z, ivec4_lt u v = true <-> lex_lt (l4 u) (l4 v).
Proof.
  intros [?e ?e ?e ?e] [?e ?e ?e ?e]; unfold ivec4_lt; cbv [l4 lex_lt x4 y4 z4 w4].
  repeat match goal with
  | |- context [Z.ltb ?a ?b] => destruct (Z.ltb_spec a b)
  | |- context [Z.gtb ?a ?b] => rewrite (Z.gtb_ltb a b)
  end; intuition (try congruence; try lia).
Qed.

Lemma lex_irrefl u : ~ lex_lt u u.
Proof. induction u; cbn; [tauto|]. intros [H|[_ H]]; [lia|tauto]. Qed.
Lemma lex_trans u v w : lex_lt u v -> lex_lt v w -> lex_lt u w.
Proof.
  revert v w; induction u as [|a u IH]; intros [|b v] [|c w]; cbn; try tauto.
  intros [H1|[H1 H2]] [H3|[H3 H4]]; try (left; lia). right; split; [lia|eauto].
Qed.
Lemma lex_total u v : length u = length v -> lex_lt u v \/ u = v \/ lex_lt v u.
Proof.
  revert v; induction u as [|a u IH]; intros [|b v]; cbn; try discriminate; [tauto|].
  intros H; injection H as H. destruct (Z.lt_total a b) as [|[->|]]; [tauto| |tauto].
  destruct (IH v H) as [|[->|]]; tauto.
Qed.

(** C10, ivec2: [<] is the lexicographic order of the components, the other relations
    are derived from it, == is identity, and [<] is a strict total order. *)
Lemma C10_ivec2_order_pf : forall u v w : vec2 Z,
  (ivec2_lt u v = true <-> lex_lt (l2 u) (l2 v)) /\
  (ivec2_gt u v = true <-> lex_lt (l2 v) (l2 u)) /\
  (ivec2_le u v = true <-> lex_lt (l2 u) (l2 v) \/ u = v) /\
  (ivec2_ge u v = true <-> lex_lt (l2 v) (l2 u) \/ u = v) /\
  (ivec2_eq u v = true <-> u = v) /\
  (ivec2_ne u v = true <-> u <> v) /\
  ivec2_lt u u = false /\
  (ivec2_lt u v = true -> ivec2_lt v w = true -> ivec2_lt u w = true) /\
  (ivec2_lt u v = true \/ u = v \/ ivec2_lt v u = true).
Proof.
  intros u v w.
  assert (Heq : ivec2_eq u v = true <-> u = v).
  { unfold ivec2_eq. rewrite ?andb_true_iff, ?Z.eqb_eq. destruct u, v; cbn; intuition congruence. }
  assert (Hinj : l2 u = l2 v -> u = v) by (destruct u, v; cbv; congruence).
  assert (Htot := lex_total (l2 u) (l2 v) eq_refl).
  assert (Huv := ivec2_lt_lex u v). assert (Hvu := ivec2_lt_lex v u).
  assert (Hir := lex_irrefl (l2 u)).
  assert (Htr := lex_trans (l2 u) (l2 v) (l2 u)).
  ands.
  - assumption.
  - assumption.
  - unfold ivec2_le. rewrite negb_true_iff, <- not_true_iff_false, Hvu.
    split; [intuition|]. intros [H| ->]; [|assumption]. intros H'. apply Hir. tauto.
  - unfold ivec2_ge. rewrite negb_true_iff, <- not_true_iff_false, Huv.
    split; [intuition|]. intros [H| ->]; [|assumption]. intros H'. apply Hir. tauto.
  - assumption.
  - unfold ivec2_ne. rewrite negb_true_iff, <- not_true_iff_false, Heq. reflexivity.
  - apply not_true_iff_false. rewrite ivec2_lt_lex. assumption.
  - rewrite !ivec2_lt_lex. apply lex_trans.
  - rewrite Huv, Hvu. intuition.
Qed.

(** C10, ivec3: [<] is the lexicographic order of the components, the other relations
    are derived from it, == is identity, and [<] is a strict total order. *)
Lemma C10_ivec3_order_pf : forall u v w : vec3 Z,
  (ivec3_lt u v = true <-> lex_lt (l3 u) (l3 v)) /\
  (ivec3_gt u v = true <-> lex_lt (l3 v) (l3 u)) /\
  (ivec3_le u v = true <-> lex_lt (l3 u) (l3 v) \/ u = v) /\
  (ivec3_ge u v = true <-> lex_lt (l3 v) (l3 u) \/ u = v) /\
  (ivec3_eq u v = true <-> u = v) /\
  (ivec3_ne u v = true <-> u <> v) /\
  ivec3_lt u u = false /\
  (ivec3_lt u v = true -> ivec3_lt v w = true -> ivec3_lt u w = true) /\
  (ivec3_lt u v = true \/ u = v \/ ivec3_lt v u = true).
Proof.
  intros u v w.
  assert (Heq : ivec3_eq u v = true <-> u = v).
  { unfold ivec3_eq. rewrite ?andb_true_iff, ?Z.eqb_eq. destruct u, v; cbn; intuition congruence. }
  assert (Hinj : l3 u = l3 v -> u = v) by (destruct u, v; cbv; congruence).
  assert (Htot := lex_total (l3 u) (l3 v) eq_refl).
  assert (Huv := ivec3_lt_lex u v). assert (Hvu := ivec3_lt_lex v u).
  assert (Hir := lex_irrefl (l3 u)).
  assert (Htr := lex_trans (l3 u) (l3 v) (l3 u)).
  ands.
  - assumption.
  - assumption.
  - unfold ivec3_le. rewrite negb_true_iff, <- not_true_iff_false, Hvu.
    split; [intuition|]. intros [H| ->]; [|assumption]. intros H'. apply Hir. tauto.
  - unfold ivec3_ge. rewrite negb_true_iff, <- not_true_iff_false, Huv.
    split; [intuition|]. intros [H| ->]; [|assumption]. intros H'. apply Hir. tauto.
  - assumption.
  - unfold ivec3_ne. rewrite negb_true_iff, <- not_true_iff_false, Heq. reflexivity.
  - apply not_true_iff_false. rewrite ivec3_lt_lex. assumption.
  - rewrite !ivec3_lt_lex. apply lex_trans.
  - rewrite Huv, Hvu. intuition.
Qed.

(** C10, ivec4: [<] is the lexicographic order of the components, the other relations
    are derived from it, == is identity, and [<] is a strict total order. *)
Lemma C10_ivec4_order_pf : forall u v w : vec4 Z,
  (ivec4_lt u v = true <-> lex_lt (l4 u) (l4 v)) /\
  (ivec4_gt u v = true <-> lex_lt (l4 v) (l4 u)) /\
  (ivec4_le u v = true <-> lex_lt (l4 u) (l4 v) \/ u = v) /\
  (ivec4_ge u v = true <-> lex_lt (l4 v) (l4 u) \/ u = v) /\
  (ivec4_eq u v = true <-> u = v) /\
  (ivec4_ne u v = true <-> u <> v) /\
  ivec4_lt u u = false /\
  (ivec4_lt u v = true -> ivec4_lt v w = true -> ivec4_lt u w = true) /\
  (ivec4_lt u v = true \/ u = v \/ ivec4_lt v u = true).
Proof.
  intros u v w.
  assert (Heq : ivec4_eq u v = true <-> u = v).
  { unfold ivec4_eq. rewrite ?andb_true_iff, ?Z.eqb_eq. destruct u, v; cbn; intuition congruence. }
  assert (Hinj : l4 u = l4 v -> u = v) by (destruct u, v; cbv; congruence).
  assert (Htot := lex_total (l4 u) (l4 v) eq_refl).
  assert (Huv := ivec4_lt_lex u v). assert (Hvu := ivec4_lt_lex v u).
  assert (Hir := lex_irrefl (l4 u)).
  assert (Htr := lex_trans (l4 u) (l4 v) (l4 u)).
  ands.
  - assumption.
  - assumption.
  - unfold ivec4_le. rewrite negb_true_iff, <- not_true_iff_false, Hvu.
    split; [intuition|]. intros [H| ->]; [|assumption]. intros H'. apply Hir. tauto.
  - unfold ivec4_ge. rewrite negb_true_iff, <- not_true_iff_false, Huv.
    split; [intuition|]. intros [H| ->]; [|assumption]. intros H'. apply Hir. tauto.
  - assumption.
  - unfold ivec4_ne. rewrite negb_true_iff, <- not_true_iff_false, Heq. reflexivity.
  - apply not_true_iff_false. rewrite ivec4_lt_lex. assumption.
  - rewrite !ivec4_lt_lex. apply lex_trans.
  - rewrite Huv, Hvu. intuition.
Qed.

(*PROPS
Example C10_ex : ivec3_lt (V3 1 2 3) (V3 1 3 0) = true /\ ivec3_lt (V3 1 3 0) (V3 1 2 3) = false.
Proof. split; reflexivity. Qed.

PROPS*)
(** C11, bvec2. *)
Lemma C11_bvec2_pf : forall (u v : vec2 bool) (s : bool) (k : vec2 Z),
  l2 (bvec2_and u v) = zip andb (l2 u) (l2 v) /\
  l2 (bvec2_and_sc u s) = map (fun a => andb a s) (l2 u) /\
  l2 (sc_and_bvec2 s u) = map (fun a => andb s a) (l2 u) /\
  l2 (bvec2_or u v) = zip orb (l2 u) (l2 v) /\
  l2 (bvec2_or_sc u s) = map (fun a => orb a s) (l2 u) /\
  l2 (sc_or_bvec2 s u) = map (fun a => orb s a) (l2 u) /\
  l2 (bvec2_xor u v) = zip xorb (l2 u) (l2 v) /\
  l2 (bvec2_xor_sc u s) = map (fun a => xorb a s) (l2 u) /\
  l2 (sc_xor_bvec2 s u) = map (fun a => xorb s a) (l2 u) /\
  l2 (bvec2_not u) = map negb (l2 u) /\
  bvec2_not (bvec2_and u v) = bvec2_or (bvec2_not u) (bvec2_not v) /\
  bvec2_not (bvec2_or u v) = bvec2_and (bvec2_not u) (bvec2_not v) /\
  bvec2_xor u v = bvec2_and (bvec2_or u v) (bvec2_not (bvec2_and u v)) /\
  (all2 u = true <-> Forall (fun a => a = true) (l2 u)) /\
  (any2 u = true <-> Exists (fun a => a = true) (l2 u)) /\
  any2 u = negb (all2 (bvec2_not u)) /\
  (bvec2_eq u v = true <-> u = v) /\
  (bvec2_ne u v = true <-> u <> v) /\
  bvec2_eq u v = all2 (bequal2 u v) /\
  bnotEqual2 u v = bvec2_not (bequal2 u v) /\
  bnotEqual2 u v = bvec2_xor u v /\
  Forall2 (fun i b => b = true <-> i <> 0) (l2 k) (l2 (ivec2_to_bvec2 k)).
Proof.
  intros u v s k.
  assert (HA : all2 u = true <-> Forall (fun a => a = true) (l2 u)).
  { destruct u; unfold all2, l2; cbn. rewrite ?andb_true_iff. split.
    - intros; repeat constructor; tauto.
    - intros H; repeat match goal with H : Forall _ (_ :: _) |- _ => inversion_clear H end; tauto. }
  assert (HE : any2 u = true <-> Exists (fun a => a = true) (l2 u)).
  { destruct u; unfold any2, l2; cbn. rewrite ?orb_true_iff, ?Exists_cons, Exists_nil. tauto. }
  assert (HQ : bvec2_eq u v = true <-> u = v).
  { destruct u, v; unfold bvec2_eq; cbn. rewrite ?andb_true_iff, ?eqb_true_iff. intuition congruence. }
  assert (HN : bvec2_ne u v = true <-> u <> v).
  { unfold bvec2_ne. rewrite negb_true_iff, <- not_true_iff_false, HQ. reflexivity. }
  assert (HK : Forall2 (fun i b => b = true <-> i <> 0) (l2 k) (l2 (ivec2_to_bvec2 k))).
  { destruct k; unfold ivec2_to_bvec2, l2; cbn; repeat constructor;
      try rewrite negb_true_iff, Z.eqb_neq in *; auto. }
  repeat (apply conj; [first [assumption | destruct u, v; cbn;
    repeat match goal with b : bool |- _ => destruct b end; reflexivity]|]).
  assumption.
Qed.

(** C11, bvec3. *)
Lemma C11_bvec3_pf : forall (u v : vec3 bool) (s : bool) (k : vec3 Z),
  l3 (bvec3_and u v) = zip andb (l3 u) (l3 v) /\
  l3 (bvec3_and_sc u s) = map (fun a => andb a s) (l3 u) /\
  l3 (sc_and_bvec3 s u) = map (fun a => andb s a) (l3 u) /\
  l3 (bvec3_or u v) = zip orb (l3 u) (l3 v) /\
  l3 (bvec3_or_sc u s) = map (fun a => orb a s) (l3 u) /\
  l3 (sc_or_bvec3 s u) = map (fun a => orb s a) (l3 u) /\
  l3 (bvec3_xor u v) = zip xorb (l3 u) (l3 v) /\
  l3 (bvec3_xor_sc u s) = map (fun a => xorb a s) (l3 u) /\
  l3 (sc_xor_bvec3 s u) = map (fun a => xorb s a) (l3 u) /\
  l3 (bvec3_not u) = map negb (l3 u) /\
  bvec3_not (bvec3_and u v) = bvec3_or (bvec3_not u) (bvec3_not v) /\
  bvec3_not (bvec3_or u v) = bvec3_and (bvec3_not u) (bvec3_not v) /\
  bvec3_xor u v = bvec3_and (bvec3_or u v) (bvec3_not (bvec3_and u v)) /\
  (all3 u = true <-> Forall (fun a => a = true) (l3 u)) /\
  (any3 u = true <-> Exists (fun a => a = true) (l3 u)) /\
  any3 u = negb (all3 (bvec3_not u)) /\
  (bvec3_eq u v = true <-> u = v) /\
  (bvec3_ne u v = true <-> u <> v) /\
  bvec3_eq u v = all3 (bequal3 u v) /\
  bnotEqual3 u v = bvec3_not (bequal3 u v) /\
  bnotEqual3 u v = bvec3_xor u v /\
  Forall2 (fun i b => b = true <-> i <> 0) (l3 k) (l3 (ivec3_to_bvec3 k)).
Proof.
  intros u v s k.
  assert (HA : all3 u = true <-> Forall (fun a => a = true) (l3 u)).
  { destruct u; unfold all3, l3; cbn. rewrite ?andb_true_iff. split.
    - intros; repeat constructor; tauto.
    - intros H; repeat match goal with H : Forall _ (_ :: _) |- _ => inversion_clear H end; tauto. }
  assert (HE : any3 u = true <-> Exists (fun a => a = true) (l3 u)).
  { destruct u; unfold any3, l3; cbn. rewrite ?orb_true_iff, ?Exists_cons, Exists_nil. tauto. }
  assert (HQ : bvec3_eq u v = true <-> u = v).
  { destruct u, v; unfold bvec3_eq; cbn. rewrite ?andb_true_iff, ?eqb_true_iff. intuition congruence. }
  assert (HN : bvec3_ne u v = true <-> u <> v).
  { unfold bvec3_ne. rewrite negb_true_iff, <- not_true_iff_false, HQ. reflexivity. }
  assert (HK : Forall2 (fun i b => b = true <-> i <> 0) (l3 k) (l3 (ivec3_to_bvec3 k))).
  { destruct k; unfold ivec3_to_bvec3, l3; cbn; repeat constructor;
      try rewrite negb_true_iff, Z.eqb_neq in *; auto. }
  repeat (apply conj; [first [assumption | destruct u, v; cbn;
    repeat match goal with b : bool |- _ => destruct b end; reflexivity]|]).
  assumption.
Qed.

(** C11, bvec4. *)
Lemma C11_bvec4_pf : forall (u v : vec4 bool) (s : bool) (k : vec4 Z),
  l4 (bvec4_and u v) = zip andb (l4 u) (l4 v) /\
  l4 (bvec4_and_sc u s) = map (fun a => andb a s) (l4 u) /\
  l4 (sc_and_bvec4 s u) = map (fun a => andb s a) (l4 u) /\
  l4 (bvec4_or u v) = zip orb (l4 u) (l4 v) /\
  l4 (bvec4_or_sc u s) = map (fun a => orb a s) (l4 u) /\
  l4 (sc_or_bvec4 s u) = map (fun a => orb s a) (l4 u) /\
  l4 (bvec4_xor u v) = zip xorb (l4 u) (l4 v) /\
  l4 (bvec4_xor_sc u s) = map (fun a => xorb a s) (l4 u) /\
  l4 (sc_xor_bvec4 s u) = map (fun a => xorb s a) (l4 u) /\
  l4 (bvec4_not u) = map negb (l4 u) /\
  bvec4_not (bvec4_and u v) = bvec4_or (bvec4_not u) (bvec4_not v) /\
  bvec4_not (bvec4_or u v) = bvec4_and (bvec4_not u) (bvec4_not v) /\
  bvec4_xor u v = bvec4_and (bvec4_or u v) (bvec4_not (bvec4_and u v)) /\
  (all4 u = true <-> Forall (fun a => a = true) (l4 u)) /\
  (any4 u = true <-> Exists (fun a => a = true) (l4 u)) /\
  any4 u = negb (all4 (bvec4_not u)) /\
  (bvec4_eq u v = true <-> u = v) /\
  (bvec4_ne u v = true <-> u <> v) /\
  bvec4_eq u v = all4 (bequal4 u v) /\
  bnotEqual4 u v = bvec4_not (bequal4 u v) /\
  bnotEqual4 u v = bvec4_xor u v /\
  Forall2 (fun i b => b = true <-> i <> 0) (l4 k) (l4 (ivec4_to_bvec4 k)).
Proof.
  intros u v s k.
  assert (HA : all4 u = true <-> Forall (fun a => a = true) (l4 u)).
  { destruct u; unfold all4, l4; cbn. rewrite ?andb_true_iff. split.
    - intros; repeat constructor; tauto.
    - intros H; repeat match goal with H : Forall _ (_ :: _) |- _ => inversion_clear H end; tauto. }
  assert (HE : any4 u = true <-> Exists (fun a => a = true) (l4 u)).
  { destruct u; unfold any4, l4; cbn. rewrite ?orb_true_iff, ?Exists_cons, Exists_nil. tauto. }
  assert (HQ : bvec4_eq u v = true <-> u = v).
  { destruct u, v; unfold bvec4_eq; cbn. rewrite ?andb_true_iff, ?eqb_true_iff. intuition congruence. }
  assert (HN : bvec4_ne u v = true <-> u <> v).
  { unfold bvec4_ne. rewrite negb_true_iff, <- not_true_iff_false, HQ. reflexivity. }
  assert (HK : Forall2 (fun i b => b = true <-> i <> 0) (l4 k) (l4 (ivec4_to_bvec4 k))).
  { destruct k; unfold ivec4_to_bvec4, l4; cbn; repeat constructor;
      try rewrite negb_true_iff, Z.eqb_neq in *; auto. }
  repeat (apply conj; [first [assumption | destruct u, v; cbn;
    repeat match goal with b : bool |- _ => destruct b end; reflexivity]|]).
  assumption.
Qed.

(*PROPS
Example C11_ex : any3 (V3 false true false) = true /\ all3 (V3 true true false) = false /\
  ivec3_to_bvec3 (V3 0 (-4) 1) = V3 false true true.
Proof. repeat split; reflexivity. Qed.

PROPS*)
Lemma max_i_max a b : max_i a b = Z.max a b.
Proof. unfold max_i; destruct (Z.ltb_spec a b); lia. Qed.
Lemma min_i_min a b : min_i a b = Z.min a b.
Proof. unfold min_i; destruct (Z.ltb_spec b a); lia. Qed.

Lemma sign_i_sgn x : sign_i x = Z.sgn x.
Proof.
  unfold sign_i; destruct (Z.eqb_spec x 0); [subst; reflexivity|].
  rewrite Z.gtb_ltb; destruct (Z.ltb_spec 0 x); lia.
Qed.

(** C68, scalars: abs is exact except on INT_MIN, where it is undefined; min, max, clamp,
    sign and signNotZero are total and exact. *)
Lemma C68_scalar_pf : forall x y lo hi : Z,
  (fits (Z.abs x) -> abs_i x = Ret (Z.abs x)) /\
  (~ fits (Z.abs x) -> abs_i x = Undefined) /\
  (fits x -> (abs_i x = Undefined <-> x = - 2 ^ 31)) /\
  max_i x y = Z.max x y /\ min_i x y = Z.min x y /\
  (lo <= hi -> lo <= clamp_i x lo hi <= hi) /\
  (lo <= x <= hi -> clamp_i x lo hi = x) /\
  (lo <= hi -> x <= lo -> clamp_i x lo hi = lo) /\ (lo <= hi -> hi <= x -> clamp_i x lo hi = hi) /\
  sign_i x = Z.sgn x /\ sign_i x * Z.abs x = x /\
  (signNotZero_i x = 1 <-> 0 <= x) /\ (signNotZero_i x = -1 <-> x < 0).
Proof.
  intros x y lo hi. unfold abs_i.
  pose proof (chk_spec (Z.abs x)) as HC.
  ands.
  - destruct HC as [[]|[]]; tauto.
  - destruct HC as [[]|[]]; tauto.
  - unfold fits in *. intros Hx. destruct HC as [[H1 H2]|[H1 H2]]; rewrite H2; split; intros; try discriminate; trivial; lia.
  - apply max_i_max.
  - apply min_i_min.
  - unfold clamp_i; rewrite min_i_min, max_i_max; lia.
  - unfold clamp_i; rewrite min_i_min, max_i_max; lia.
  - unfold clamp_i; rewrite min_i_min, max_i_max; lia.
  - unfold clamp_i; rewrite min_i_min, max_i_max; lia.
  - unfold sign_i; destruct (Z.eqb_spec x 0); [subst; reflexivity|].
    rewrite Z.gtb_ltb; destruct (Z.ltb_spec 0 x); lia.
  - unfold sign_i; destruct (Z.eqb_spec x 0); [subst; reflexivity|].
    rewrite Z.gtb_ltb; destruct (Z.ltb_spec 0 x); lia.
  - unfold signNotZero_i; rewrite Z.geb_leb; destruct (Z.leb_spec 0 x); lia.
  - unfold signNotZero_i; rewrite Z.geb_leb; destruct (Z.leb_spec 0 x); lia.
Qed.

Lemma reduction2 op f a b : opspec f op (fun a b => fits (op a b)) ->
  reduction_exact op [a; b] (f a b).
Proof. intros H; cbn. destruct (H a b) as [[H1 H2]|[H1 H2]]; rewrite H2; split; tauto. Qed.
Lemma reduction3 op f a b c : opspec f op (fun a b => fits (op a b)) ->
  reduction_exact op [a; b; c] (bind (f a b) (fun r => f r c)).
Proof.
  intros H; cbn. destruct (H a b) as [[H1 H2]|[H1 H2]]; rewrite H2; cbn [bind]; [|split; tauto].
  destruct (H (op a b) c) as [[H3 H4]|[H3 H4]]; rewrite H4; split; tauto.
Qed.
Lemma reduction4 op f a b c d : opspec f op (fun a b => fits (op a b)) ->
  reduction_exact op [a; b; c; d] (bind (f a b) (fun r => bind (f r c) (fun r => f r d))).
Proof.
  intros H; cbn. destruct (H a b) as [[H1 H2]|[H1 H2]]; rewrite H2; cbn [bind]; [|split; tauto].
  destruct (H (op a b) c) as [[H3 H4]|[H3 H4]]; rewrite H4; cbn [bind]; [|split; tauto].
  destruct (H (op (op a b) c) d) as [[H5 H6]|[H5 H6]]; rewrite H6; split; tauto.
Qed.

(** C68, ivec2. *)
Lemma C68_ivec2_pf : forall u v w : vec2 Z,
  (Forall (fun a => fits (Z.abs a)) (l2 u) -> omap l2 (iabs2 u) = Ret (map Z.abs (l2 u))) /\
  (~ Forall (fun a => fits (Z.abs a)) (l2 u) -> iabs2 u = Undefined) /\
  l2 (imax2 u v) = zip Z.max (l2 u) (l2 v) /\
  l2 (imin2 u v) = zip Z.min (l2 u) (l2 v) /\
  l2 (iclamp2 u v w) = zip3 (fun x lo hi => Z.min (Z.max x lo) hi) (l2 u) (l2 v) (l2 w) /\
  l2 (isign2 u) = map Z.sgn (l2 u) /\
  l2 (isignNotZero2 u) = map (fun a => if 0 <=? a then 1 else -1) (l2 u) /\
  reduction_exact Z.add (l2 u) (icompAdd2 u) /\
  reduction_exact Z.mul (l2 u) (icompMul2 u) /\
  is_min (icompMin2 u) (l2 u) /\
  is_max (icompMax2 u) (l2 u).
Proof.
  intros u v w.
  assert (HABS : (Forall (fun a => fits (Z.abs a)) (l2 u) -> omap l2 (iabs2 u) = Ret (map Z.abs (l2 u))) /\
    (~ Forall (fun a => fits (Z.abs a)) (l2 u) -> iabs2 u = Undefined)).
  { destruct u as [?e ?e]; unfold iabs2, abs_i; cbv [l2 x2 y2   map].
    repeat match goal with |- context [bind (chk ?a) _] =>
      let K := fresh in let E := fresh in
      destruct (chk_spec a) as [[K E]|[K E]]; rewrite E; cbn [bind omap] end;
    (split; intros HF;
     [ try (exfalso; repeat match goal with H : Forall _ (_ :: _) |- _ => inversion_clear H end; contradiction); reflexivity
     | try reflexivity; exfalso; apply HF; repeat (constructor; trivial) ]). }
  ands; try apply HABS.
  1-5: destruct u as [?e ?e], v as [?e ?e], w as [?e ?e];
    cbv [l2 imax2 imin2 iclamp2 isign2 isignNotZero2 zip zip3 map x2 y2   signNotZero_i];
    rewrite ?max_i_max, ?min_i_min, ?Z.geb_leb, ?sign_i_sgn; reflexivity.
  - apply reduction2, add_spec.
  - apply reduction2, mul_spec.
  - destruct u; split; unfold icompMin2, l2; cbn; rewrite ?min_i_min; [lia|]. repeat constructor; lia.
  - destruct u; split; unfold icompMax2, l2; cbn; rewrite ?max_i_max; [lia|]. repeat constructor; lia.
Qed.

(** C68, ivec3. *)
Lemma C68_ivec3_pf : forall u v w : vec3 Z,
  (Forall (fun a => fits (Z.abs a)) (l3 u) -> omap l3 (iabs3 u) = Ret (map Z.abs (l3 u))) /\
  (~ Forall (fun a => fits (Z.abs a)) (l3 u) -> iabs3 u = Undefined) /\
  l3 (imax3 u v) = zip Z.max (l3 u) (l3 v) /\
  l3 (imin3 u v) = zip Z.min (l3 u) (l3 v) /\
  l3 (iclamp3 u v w) = zip3 (fun x lo hi => Z.min (Z.max x lo) hi) (l3 u) (l3 v) (l3 w) /\
  l3 (isign3 u) = map Z.sgn (l3 u) /\
  l3 (isignNotZero3 u) = map (fun a => if 0 <=? a then 1 else -1) (l3 u) /\
  reduction_exact Z.add (l3 u) (icompAdd3 u) /\
  reduction_exact Z.mul (l3 u) (icompMul3 u) /\
  is_min (icompMin3 u) (l3 u) /\
  is_max (icompMax3 u) (l3 u).
Proof.
  intros u v w.
  assert (HABS : (Forall (fun a => fits (Z.abs a)) (l3 u) -> omap l3 (iabs3 u) = Ret (map Z.abs (l3 u))) /\
    (~ Forall (fun a => fits (Z.abs a)) (l3 u) -> iabs3 u = Undefined)).
  { destruct u as [?e ?e ?e]; unfold iabs3, abs_i; cbv [l3 x3 y3 z3  map].
    repeat match goal with |- context [bind (chk ?a) _] =>
      let K := fresh in let E := fresh in
      destruct (chk_spec a) as [[K E]|[K E]]; rewrite E; cbn [bind omap] end;
    (split; intros HF;
     [ try (exfalso; repeat match goal with H : Forall _ (_ :: _) |- _ => inversion_clear H end; contradiction); reflexivity
     | try reflexivity; exfalso; apply HF; repeat (constructor; trivial) ]). }
  ands; try apply HABS.
  1-5: destruct u as [?e ?e ?e], v as [?e ?e ?e], w as [?e ?e ?e];
    cbv [l3 imax3 imin3 iclamp3 isign3 isignNotZero3 zip zip3 map x3 y3 z3  signNotZero_i];
    rewrite ?max_i_max, ?min_i_min, ?Z.geb_leb, ?sign_i_sgn; reflexivity.
  - apply reduction3, add_spec.
  - apply reduction3, mul_spec.
  - destruct u; split; unfold icompMin3, l3; cbn; rewrite ?min_i_min; [lia|]. repeat constructor; lia.
  - destruct u; split; unfold icompMax3, l3; cbn; rewrite ?max_i_max; [lia|]. repeat constructor; lia.
Qed.

(** C68, ivec4. *)
Lemma C68_ivec4_pf : forall u v w : vec4 Z,
  (Forall (fun a => fits (Z.abs a)) (l4 u) -> omap l4 (iabs4 u) = Ret (map Z.abs (l4 u))) /\
  (~ Forall (fun a => fits (Z.abs a)) (l4 u) -> iabs4 u = Undefined) /\
  l4 (imax4 u v) = zip Z.max (l4 u) (l4 v) /\
  l4 (imin4 u v) = zip Z.min (l4 u) (l4 v) /\
  l4 (iclamp4 u v w) = zip3 (fun x lo hi => Z.min (Z.max x lo) hi) (l4 u) (l4 v) (l4 w) /\
  l4 (isign4 u) = map Z.sgn (l4 u) /\
  l4 (isignNotZero4 u) = map (fun a => if 0 <=? a then 1 else -1) (l4 u) /\
  reduction_exact Z.add (l4 u) (icompAdd4 u) /\
  reduction_exact Z.mul (l4 u) (icompMul4 u) /\
  is_min (icompMin4 u) (l4 u) /\
  is_max (icompMax4 u) (l4 u).
Proof.
  intros u v w.
  assert (HABS : (Forall (fun a => fits (Z.abs a)) (l4 u) -> omap l4 (iabs4 u) = Ret (map Z.abs (l4 u))) /\
    (~ Forall (fun a => fits (Z.abs a)) (l4 u) -> iabs4 u = Undefined)).
  { destruct u as [?e ?e ?e ?e]; unfold iabs4, abs_i; cbv [l4 x4 y4 z4 w4 map].
    repeat match goal with |- context [bind (chk ?a) _] =>
      let K := fresh in let E := fresh in
      destruct (chk_spec a) as [[K E]|[K E]]; rewrite E; cbn [bind omap] end;
    (split; intros HF;
     [ try (exfalso; repeat match goal with H : Forall _ (_ :: _) |- _ => inversion_clear H end; contradiction); reflexivity
     | try reflexivity; exfalso; apply HF; repeat (constructor; trivial) ]). }
  ands; try apply HABS.
  1-5: destruct u as [?e ?e ?e ?e], v as [?e ?e ?e ?e], w as [?e ?e ?e ?e];
    cbv [l4 imax4 imin4 iclamp4 isign4 isignNotZero4 zip zip3 map x4 y4 z4 w4 signNotZero_i];
    rewrite ?max_i_max, ?min_i_min, ?Z.geb_leb, ?sign_i_sgn; reflexivity.
  - apply reduction4, add_spec.
  - apply reduction4, mul_spec.
  - destruct u; split; unfold icompMin4, l4; cbn; rewrite ?min_i_min; [lia|]. repeat constructor; lia.
  - destruct u; split; unfold icompMax4, l4; cbn; rewrite ?max_i_max; [lia|]. repeat constructor; lia.
Qed.

(*PROPS
Example C68_ex : iabs3 (V3 (-5) 0 7) = Ret (V3 5 0 7) /\ iabs2 (V2 0 (-2147483648)) = Undefined /\
  icompAdd3 (V3 2147483647 1 (-5)) = Undefined /\ icompAdd3 (V3 2147483647 (-5) 1) = Ret 2147483643.
Proof. repeat split; reflexivity. Qed.
PROPS*)