(** * Proofs: the accessor templates as written *)
From Coq Require Import ZArith Bool List String Lia.
From Verif Require Import Scalar Outcome Types Spec Int32 ModelAccess ModelSwizzle CppAccess CppAccessCode SpecAccessText.
Import ListNotations.
Local Open Scope string_scope.
Local Open Scope scalar_scope.
(*HEADER END*)

Ltac acc_crush :=
  cbn -[i32_add i32_sub i32_mul i32_div i32_rem i32_or i32_and i32_xor i32_shl i32_shr];
  repeat match goal with
  | |- context [i32_add ?a ?b] => destruct (i32_add a b) eqn:?
  | |- context [i32_sub ?a ?b] => destruct (i32_sub a b) eqn:?
  | |- context [i32_mul ?a ?b] => destruct (i32_mul a b) eqn:?
  | |- context [i32_div ?a ?b] => destruct (i32_div a b) eqn:?
  | |- context [i32_rem ?a ?b] => destruct (i32_rem a b) eqn:?
  | |- context [i32_or ?a ?b] => destruct (i32_or a b) eqn:?
  | |- context [i32_and ?a ?b] => destruct (i32_and a b) eqn:?
  | |- context [i32_xor ?a ?b] => destruct (i32_xor a b) eqn:?
  | |- context [i32_shl ?a ?b] => destruct (i32_shl a b) eqn:?
  | |- context [i32_shr ?a ?b] => destruct (i32_shr a b) eqn:?
  end; try reflexivity; try (split; [reflexivity|intros q Hq; inversion Hq; reflexivity]);
  try (split; [reflexivity|intros q Hq; discriminate]).

(** The operators of [scalar_accessor_2<float, index>] as written in vec2_access.hpp do what the
    model's functions do, for every index, vector and argument; the prefix operators return a reference
    to the component. *)
Lemma C103_float2_pf : forall (S : Scalar) (i : nat) (rd : vec2 S -> S) (v : vec2 S),
  (i < 2)%nat ->
  let run n g := fcall S "scalar_accessor_2" [TTy "float"; TIx i] n g (l2 v) in
  run Nassign (GVal (rd v)) = leaves_elements l2 (Ret (acc2_set i rd v)) /\
  run (Ncompound AoAdd) (GVal (rd v)) = leaves_elements l2 (Ret (acc2_add_assign S i rd v)) /\
  run (Ncompound AoSub) (GVal (rd v)) = leaves_elements l2 (Ret (acc2_sub_assign S i rd v)) /\
  run (Ncompound AoMul) (GVal (rd v)) = leaves_elements l2 (Ret (acc2_mul_assign S i rd v)) /\
  run (Ncompound AoDiv) (GVal (rd v)) = leaves_elements l2 (Ret (acc2_div_assign S i rd v)) /\
  returns_element l2 i (Ret (acc2_preinc S i v)) (run (Ninc false) GNone) /\
  run (Ninc false) GPostfix = returns_value l2 (Ret (acc2_postinc S i v)) /\
  returns_element l2 i (Ret (acc2_predec S i v)) (run (Ninc true) GNone) /\
  run (Ninc true) GPostfix = returns_value l2 (Ret (acc2_postdec S i v)) /\
  run (Nconv "float") GNone = returns_value l2 (Ret (v, acc2_get i v)).
Proof.
  intros S i rd v Hi run; unfold run, returns_element, returns_value, leaves_elements, fcall; clear run.
  destruct v; destruct i as [|[|[|[|i]]]]; try lia; repeat (split; [acc_crush|]); acc_crush.
Qed.

(** Assigning a component from another vector's component: from the same component, the chosen operator
    is the implicit copy assignment, which copies the whole vector; from a component with another index
    only this component changes.  Compound assignments read the value in either case. *)
Lemma C103_copy2_pf : forall (S : Scalar) (i j : nat) (v w : vec2 S),
  (i < 2)%nat -> (j < 2)%nat ->
  let acc k := GAcc "scalar_accessor_2" [TTy "float"; TIx k] (l2 w) in
  let run n g := fcall S "scalar_accessor_2" [TTy "float"; TIx i] n g (l2 v) in
  run Nassign (acc i) = leaves_elements l2 (Ret w) /\
  (j <> i -> run Nassign (acc j) = leaves_elements l2 (Ret (acc2_set i (fun _ => el2 w j) v))) /\
  run (Ncompound AoAdd) (acc j) = leaves_elements l2 (Ret (acc2_add_assign S i (fun _ => el2 w j) v)) /\
  run (Ncompound AoSub) (acc j) = leaves_elements l2 (Ret (acc2_sub_assign S i (fun _ => el2 w j) v)) /\
  run (Ncompound AoMul) (acc j) = leaves_elements l2 (Ret (acc2_mul_assign S i (fun _ => el2 w j) v)) /\
  run (Ncompound AoDiv) (acc j) = leaves_elements l2 (Ret (acc2_div_assign S i (fun _ => el2 w j) v)).
Proof.
  intros S i j v w Hi Hj acc run; unfold run, acc, leaves_elements, fcall; clear run acc.
  destruct v, w; destruct i as [|[|[|[|i]]]]; try lia; destruct j as [|[|[|[|j]]]]; try lia;
    (split; [reflexivity|split; [intro H; first [exfalso; apply H; reflexivity | reflexivity]|]]);
    repeat (split; [reflexivity|]); reflexivity.
Qed.

(** The operators of [scalar_accessor_2i<int32_t, index>], those of its base class included. *)
Lemma C103_int2_pf : forall (i : nat) (rd : vec2 Z -> Z) (v : vec2 Z),
  (i < 2)%nat ->
  let run n g := icall "scalar_accessor_2i" [TTy "int32_t"; TIx i] n g (l2 v) in
  run (Ncompound AoAdd) (GVal (rd v)) = leaves_elements l2 (iacc2_add_assign i rd v) /\
  run (Ncompound AoSub) (GVal (rd v)) = leaves_elements l2 (iacc2_sub_assign i rd v) /\
  run (Ncompound AoMul) (GVal (rd v)) = leaves_elements l2 (iacc2_mul_assign i rd v) /\
  run (Ncompound AoDiv) (GVal (rd v)) = leaves_elements l2 (iacc2_div_assign i rd v) /\
  run (Ncompound AoRem) (GVal (rd v)) = leaves_elements l2 (iacc2_rem_assign i rd v) /\
  run (Ncompound AoOr) (GVal (rd v)) = leaves_elements l2 (iacc2_or_assign i rd v) /\
  run (Ncompound AoAnd) (GVal (rd v)) = leaves_elements l2 (iacc2_and_assign i rd v) /\
  run (Ncompound AoXor) (GVal (rd v)) = leaves_elements l2 (iacc2_xor_assign i rd v) /\
  run (Ncompound AoShl) (GVal (rd v)) = leaves_elements l2 (iacc2_shl_assign i rd v) /\
  run (Ncompound AoShr) (GVal (rd v)) = leaves_elements l2 (iacc2_shr_assign i rd v) /\
  returns_element l2 i (iacc2_preinc i v) (run (Ninc false) GNone) /\
  run (Ninc false) GPostfix = returns_value l2 (iacc2_postinc i v) /\
  returns_element l2 i (iacc2_predec i v) (run (Ninc true) GNone) /\
  run (Ninc true) GPostfix = returns_value l2 (iacc2_postdec i v) /\
  run (Nconv "int32_t") GNone = returns_value l2 (Ret (v, acc2_get i v)).
Proof.
  intros i rd v Hi run; unfold run, returns_element, returns_value, leaves_elements, icall; clear run.
  unfold iacc2_add_assign, iacc2_sub_assign, iacc2_mul_assign, iacc2_div_assign, iacc2_rem_assign, iacc2_or_assign, iacc2_and_assign, iacc2_xor_assign, iacc2_shl_assign, iacc2_shr_assign, iacc2_preinc, iacc2_postinc, iacc2_predec, iacc2_postdec.
  destruct v; destruct i as [|[|[|[|i]]]]; try lia; repeat (split; [acc_crush|]); acc_crush.
Qed.

(** The operators of [scalar_accessor_3<float, index>] as written in vec3_access.hpp do what the
    model's functions do, for every index, vector and argument; the prefix operators return a reference
    to the component. *)
Lemma C103_float3_pf : forall (S : Scalar) (i : nat) (rd : vec3 S -> S) (v : vec3 S),
  (i < 3)%nat ->
  let run n g := fcall S "scalar_accessor_3" [TTy "float"; TIx i] n g (l3 v) in
  run Nassign (GVal (rd v)) = leaves_elements l3 (Ret (acc3_set i rd v)) /\
  run (Ncompound AoAdd) (GVal (rd v)) = leaves_elements l3 (Ret (acc3_add_assign S i rd v)) /\
  run (Ncompound AoSub) (GVal (rd v)) = leaves_elements l3 (Ret (acc3_sub_assign S i rd v)) /\
  run (Ncompound AoMul) (GVal (rd v)) = leaves_elements l3 (Ret (acc3_mul_assign S i rd v)) /\
  run (Ncompound AoDiv) (GVal (rd v)) = leaves_elements l3 (Ret (acc3_div_assign S i rd v)) /\
  returns_element l3 i (Ret (acc3_preinc S i v)) (run (Ninc false) GNone) /\
  run (Ninc false) GPostfix = returns_value l3 (Ret (acc3_postinc S i v)) /\
  returns_element l3 i (Ret (acc3_predec S i v)) (run (Ninc true) GNone) /\
  run (Ninc true) GPostfix = returns_value l3 (Ret (acc3_postdec S i v)) /\
  run (Nconv "float") GNone = returns_value l3 (Ret (v, acc3_get i v)).
Proof.
  intros S i rd v Hi run; unfold run, returns_element, returns_value, leaves_elements, fcall; clear run.
  destruct v; destruct i as [|[|[|[|i]]]]; try lia; repeat (split; [acc_crush|]); acc_crush.
Qed.

(** Assigning a component from another vector's component: from the same component, the chosen operator
    is the implicit copy assignment, which copies the whole vector; from a component with another index
    only this component changes.  Compound assignments read the value in either case. *)
Lemma C103_copy3_pf : forall (S : Scalar) (i j : nat) (v w : vec3 S),
  (i < 3)%nat -> (j < 3)%nat ->
  let acc k := GAcc "scalar_accessor_3" [TTy "float"; TIx k] (l3 w) in
  let run n g := fcall S "scalar_accessor_3" [TTy "float"; TIx i] n g (l3 v) in
  run Nassign (acc i) = leaves_elements l3 (Ret w) /\
  (j <> i -> run Nassign (acc j) = leaves_elements l3 (Ret (acc3_set i (fun _ => el3 w j) v))) /\
  run (Ncompound AoAdd) (acc j) = leaves_elements l3 (Ret (acc3_add_assign S i (fun _ => el3 w j) v)) /\
  run (Ncompound AoSub) (acc j) = leaves_elements l3 (Ret (acc3_sub_assign S i (fun _ => el3 w j) v)) /\
  run (Ncompound AoMul) (acc j) = leaves_elements l3 (Ret (acc3_mul_assign S i (fun _ => el3 w j) v)) /\
  run (Ncompound AoDiv) (acc j) = leaves_elements l3 (Ret (acc3_div_assign S i (fun _ => el3 w j) v)).
Proof.
  intros S i j v w Hi Hj acc run; unfold run, acc, leaves_elements, fcall; clear run acc.
  destruct v, w; destruct i as [|[|[|[|i]]]]; try lia; destruct j as [|[|[|[|j]]]]; try lia;
    (split; [reflexivity|split; [intro H; first [exfalso; apply H; reflexivity | reflexivity]|]]);
    repeat (split; [reflexivity|]); reflexivity.
Qed.

(** The operators of [scalar_accessor_3i<int32_t, index>], those of its base class included. *)
Lemma C103_int3_pf : forall (i : nat) (rd : vec3 Z -> Z) (v : vec3 Z),
  (i < 3)%nat ->
  let run n g := icall "scalar_accessor_3i" [TTy "int32_t"; TIx i] n g (l3 v) in
  run (Ncompound AoAdd) (GVal (rd v)) = leaves_elements l3 (iacc3_add_assign i rd v) /\
  run (Ncompound AoSub) (GVal (rd v)) = leaves_elements l3 (iacc3_sub_assign i rd v) /\
  run (Ncompound AoMul) (GVal (rd v)) = leaves_elements l3 (iacc3_mul_assign i rd v) /\
  run (Ncompound AoDiv) (GVal (rd v)) = leaves_elements l3 (iacc3_div_assign i rd v) /\
  run (Ncompound AoRem) (GVal (rd v)) = leaves_elements l3 (iacc3_rem_assign i rd v) /\
  run (Ncompound AoOr) (GVal (rd v)) = leaves_elements l3 (iacc3_or_assign i rd v) /\
  run (Ncompound AoAnd) (GVal (rd v)) = leaves_elements l3 (iacc3_and_assign i rd v) /\
  run (Ncompound AoXor) (GVal (rd v)) = leaves_elements l3 (iacc3_xor_assign i rd v) /\
  run (Ncompound AoShl) (GVal (rd v)) = leaves_elements l3 (iacc3_shl_assign i rd v) /\
  run (Ncompound AoShr) (GVal (rd v)) = leaves_elements l3 (iacc3_shr_assign i rd v) /\
  returns_element l3 i (iacc3_preinc i v) (run (Ninc false) GNone) /\
  run (Ninc false) GPostfix = returns_value l3 (iacc3_postinc i v) /\
  returns_element l3 i (iacc3_predec i v) (run (Ninc true) GNone) /\
  run (Ninc true) GPostfix = returns_value l3 (iacc3_postdec i v) /\
  run (Nconv "int32_t") GNone = returns_value l3 (Ret (v, acc3_get i v)).
Proof.
  intros i rd v Hi run; unfold run, returns_element, returns_value, leaves_elements, icall; clear run.
  unfold iacc3_add_assign, iacc3_sub_assign, iacc3_mul_assign, iacc3_div_assign, iacc3_rem_assign, iacc3_or_assign, iacc3_and_assign, iacc3_xor_assign, iacc3_shl_assign, iacc3_shr_assign, iacc3_preinc, iacc3_postinc, iacc3_predec, iacc3_postdec.
  destruct v; destruct i as [|[|[|[|i]]]]; try lia; repeat (split; [acc_crush|]); acc_crush.
Qed.

(** The operators of [scalar_accessor_4<float, index>] as written in vec4_access.hpp do what the
    model's functions do, for every index, vector and argument; the prefix operators return a reference
    to the component. *)
Lemma C103_float4_pf : forall (S : Scalar) (i : nat) (rd : vec4 S -> S) (v : vec4 S),
  (i < 4)%nat ->
  let run n g := fcall S "scalar_accessor_4" [TTy "float"; TIx i] n g (l4 v) in
  run Nassign (GVal (rd v)) = leaves_elements l4 (Ret (acc4_set i rd v)) /\
  run (Ncompound AoAdd) (GVal (rd v)) = leaves_elements l4 (Ret (acc4_add_assign S i rd v)) /\
  run (Ncompound AoSub) (GVal (rd v)) = leaves_elements l4 (Ret (acc4_sub_assign S i rd v)) /\
  run (Ncompound AoMul) (GVal (rd v)) = leaves_elements l4 (Ret (acc4_mul_assign S i rd v)) /\
  run (Ncompound AoDiv) (GVal (rd v)) = leaves_elements l4 (Ret (acc4_div_assign S i rd v)) /\
  returns_element l4 i (Ret (acc4_preinc S i v)) (run (Ninc false) GNone) /\
  run (Ninc false) GPostfix = returns_value l4 (Ret (acc4_postinc S i v)) /\
  returns_element l4 i (Ret (acc4_predec S i v)) (run (Ninc true) GNone) /\
  run (Ninc true) GPostfix = returns_value l4 (Ret (acc4_postdec S i v)) /\
  run (Nconv "float") GNone = returns_value l4 (Ret (v, acc4_get i v)).
Proof.
  intros S i rd v Hi run; unfold run, returns_element, returns_value, leaves_elements, fcall; clear run.
  destruct v; destruct i as [|[|[|[|i]]]]; try lia; repeat (split; [acc_crush|]); acc_crush.
Qed.

(** Assigning a component from another vector's component: from the same component, the chosen operator
    is the implicit copy assignment, which copies the whole vector; from a component with another index
    only this component changes.  Compound assignments read the value in either case. *)
Lemma C103_copy4_pf : forall (S : Scalar) (i j : nat) (v w : vec4 S),
  (i < 4)%nat -> (j < 4)%nat ->
  let acc k := GAcc "scalar_accessor_4" [TTy "float"; TIx k] (l4 w) in
  let run n g := fcall S "scalar_accessor_4" [TTy "float"; TIx i] n g (l4 v) in
  run Nassign (acc i) = leaves_elements l4 (Ret w) /\
  (j <> i -> run Nassign (acc j) = leaves_elements l4 (Ret (acc4_set i (fun _ => el4 w j) v))) /\
  run (Ncompound AoAdd) (acc j) = leaves_elements l4 (Ret (acc4_add_assign S i (fun _ => el4 w j) v)) /\
  run (Ncompound AoSub) (acc j) = leaves_elements l4 (Ret (acc4_sub_assign S i (fun _ => el4 w j) v)) /\
  run (Ncompound AoMul) (acc j) = leaves_elements l4 (Ret (acc4_mul_assign S i (fun _ => el4 w j) v)) /\
  run (Ncompound AoDiv) (acc j) = leaves_elements l4 (Ret (acc4_div_assign S i (fun _ => el4 w j) v)).
Proof.
  intros S i j v w Hi Hj acc run; unfold run, acc, leaves_elements, fcall; clear run acc.
  destruct v, w; destruct i as [|[|[|[|i]]]]; try lia; destruct j as [|[|[|[|j]]]]; try lia;
    (split; [reflexivity|split; [intro H; first [exfalso; apply H; reflexivity | reflexivity]|]]);
    repeat (split; [reflexivity|]); reflexivity.
Qed.

(** The operators of [scalar_accessor_4i<int32_t, index>], those of its base class included. *)
Lemma C103_int4_pf : forall (i : nat) (rd : vec4 Z -> Z) (v : vec4 Z),
  (i < 4)%nat ->
  let run n g := icall "scalar_accessor_4i" [TTy "int32_t"; TIx i] n g (l4 v) in
  run (Ncompound AoAdd) (GVal (rd v)) = leaves_elements l4 (iacc4_add_assign i rd v) /\
  run (Ncompound AoSub) (GVal (rd v)) = leaves_elements l4 (iacc4_sub_assign i rd v) /\
  run (Ncompound AoMul) (GVal (rd v)) = leaves_elements l4 (iacc4_mul_assign i rd v) /\
  run (Ncompound AoDiv) (GVal (rd v)) = leaves_elements l4 (iacc4_div_assign i rd v) /\
  run (Ncompound AoRem) (GVal (rd v)) = leaves_elements l4 (iacc4_rem_assign i rd v) /\
  run (Ncompound AoOr) (GVal (rd v)) = leaves_elements l4 (iacc4_or_assign i rd v) /\
  run (Ncompound AoAnd) (GVal (rd v)) = leaves_elements l4 (iacc4_and_assign i rd v) /\
  run (Ncompound AoXor) (GVal (rd v)) = leaves_elements l4 (iacc4_xor_assign i rd v) /\
  run (Ncompound AoShl) (GVal (rd v)) = leaves_elements l4 (iacc4_shl_assign i rd v) /\
  run (Ncompound AoShr) (GVal (rd v)) = leaves_elements l4 (iacc4_shr_assign i rd v) /\
  returns_element l4 i (iacc4_preinc i v) (run (Ninc false) GNone) /\
  run (Ninc false) GPostfix = returns_value l4 (iacc4_postinc i v) /\
  returns_element l4 i (iacc4_predec i v) (run (Ninc true) GNone) /\
  run (Ninc true) GPostfix = returns_value l4 (iacc4_postdec i v) /\
  run (Nconv "int32_t") GNone = returns_value l4 (Ret (v, acc4_get i v)).
Proof.
  intros i rd v Hi run; unfold run, returns_element, returns_value, leaves_elements, icall; clear run.
  unfold iacc4_add_assign, iacc4_sub_assign, iacc4_mul_assign, iacc4_div_assign, iacc4_rem_assign, iacc4_or_assign, iacc4_and_assign, iacc4_xor_assign, iacc4_shl_assign, iacc4_shr_assign, iacc4_preinc, iacc4_postinc, iacc4_predec, iacc4_postdec.
  destruct v; destruct i as [|[|[|[|i]]]]; try lia; repeat (split; [acc_crush|]); acc_crush.
Qed.

(** [v.x = n] is rejected for the integer vectors: the copy assignment operator that every class has hides
    operator=(T) of the base class.  Of the assignments between components only the one from the same
    component compiles, and it copies the whole vector. *)
Lemma C103_int_assignment_refuted_pf : forall (i j : nat) (n : Z) (v2 w2 : vec2 Z) (v3 w3 : vec3 Z) (v4 w4 : vec4 Z),
  ((i < 2)%nat -> (j < 2)%nat ->
   let acc k := GAcc "scalar_accessor_2i" [TTy "int32_t"; TIx k] (l2 w2) in
   let run g := icall "scalar_accessor_2i" [TTy "int32_t"; TIx i] Nassign g (l2 v2) in
   run (GVal n) = None /\ (j <> i -> run (acc j) = None) /\ run (acc i) = leaves_elements l2 (Ret w2)) /\
  ((i < 3)%nat -> (j < 3)%nat ->
   let acc k := GAcc "scalar_accessor_3i" [TTy "int32_t"; TIx k] (l3 w3) in
   let run g := icall "scalar_accessor_3i" [TTy "int32_t"; TIx i] Nassign g (l3 v3) in
   run (GVal n) = None /\ (j <> i -> run (acc j) = None) /\ run (acc i) = leaves_elements l3 (Ret w3)) /\
  ((i < 4)%nat -> (j < 4)%nat ->
   let acc k := GAcc "scalar_accessor_4i" [TTy "int32_t"; TIx k] (l4 w4) in
   let run g := icall "scalar_accessor_4i" [TTy "int32_t"; TIx i] Nassign g (l4 v4) in
   run (GVal n) = None /\ (j <> i -> run (acc j) = None) /\ run (acc i) = leaves_elements l4 (Ret w4)).
Proof.
  intros i j n v2 w2 v3 w3 v4 w4; split; [|split]; intros Hi Hj acc run; unfold run, acc, leaves_elements, icall;
    clear run acc.
  - destruct v2, w2; destruct i as [|[|[|[|i]]]]; try lia; destruct j as [|[|[|[|j]]]]; try lia;
      (split; [reflexivity|split; [intro H; first [exfalso; apply H; reflexivity | reflexivity]|reflexivity]]).
  - destruct v3, w3; destruct i as [|[|[|[|i]]]]; try lia; destruct j as [|[|[|[|j]]]]; try lia;
      (split; [reflexivity|split; [intro H; first [exfalso; apply H; reflexivity | reflexivity]|reflexivity]]).
  - destruct v4, w4; destruct i as [|[|[|[|i]]]]; try lia; destruct j as [|[|[|[|j]]]]; try lia;
      (split; [reflexivity|split; [intro H; first [exfalso; apply H; reflexivity | reflexivity]|reflexivity]]).
Qed.

Lemma expand2 : forall {A} (elem t : string) (arith : aop -> A -> A -> comp A) (one : A) (v : vec2 A) (l : list nat),
  Forall (fun i => i < 2)%nat l ->
  call accessor_code elem arith one "shuffle_accessor_2" (TTy elem :: TTy t :: map TIx l) (Nconv t) GNone (l2 v) =
  cret (l2 v, RObj t (map (el2 v) l)).
Proof.
  intros A elem t arith one v l Hl. unfold call, call_plain.
  assert (HI : indices_of (map TIx l) = Some l)
    by (clear Hl; induction l as [|a l IH]; [reflexivity|cbn; rewrite IH; reflexivity]).
  assert (HB : instance accessor_code "shuffle_accessor_2" (TTy elem :: TTy t :: map TIx l) =
               Some (nth 2 accessor_code (Class "" [] None None []),
                     [("T", BTy elem); ("V", BTy t); ("indices", BPack l)])).
  { unfold instance. cbn -[indices_of map]. rewrite HI. reflexivity. }
  rewrite HB. clear HB HI.
  cbn -[expand map l2]. rewrite String.eqb_refl. cbn -[expand map l2].
  rewrite ?String.eqb_refl.
  match goal with |- cbind (expand ?p ?elem ?ar ?o ?k ?e ?b ?y ?x l ?s) _ = _ =>
    assert (HE : expand p elem ar o k e b y x l s = cret (map (el2 v) l)) end.
  { clear -Hl. generalize (BPack l) as bp; intro bp. induction Hl as [|i l Hi Hl IH]; [reflexivity|].
    cbn [expand].
    match goal with |- cbind ?x _ = _ => assert (HS : x = cret (l2 v, el2 v i)) end.
    { clear -Hi. unfold sval, lval, array_of, tname. cbn -[String.eqb l2 el2].
      rewrite ?String.eqb_refl. cbn -[l2 el2]. rewrite ?String.eqb_refl. destruct v; destruct i as [|[|[|[|i]]]]; try lia; reflexivity. }
    rewrite HS. cbn [cbind cret fst snd]. rewrite IH. reflexivity. }
  rewrite HE. reflexivity.
Qed.

Lemma expand3 : forall {A} (elem t : string) (arith : aop -> A -> A -> comp A) (one : A) (v : vec3 A) (l : list nat),
  Forall (fun i => i < 3)%nat l ->
  call accessor_code elem arith one "shuffle_accessor_3" (TTy elem :: TTy t :: map TIx l) (Nconv t) GNone (l3 v) =
  cret (l3 v, RObj t (map (el3 v) l)).
Proof.
  intros A elem t arith one v l Hl. unfold call, call_plain.
  assert (HI : indices_of (map TIx l) = Some l)
    by (clear Hl; induction l as [|a l IH]; [reflexivity|cbn; rewrite IH; reflexivity]).
  assert (HB : instance accessor_code "shuffle_accessor_3" (TTy elem :: TTy t :: map TIx l) =
               Some (nth 5 accessor_code (Class "" [] None None []),
                     [("T", BTy elem); ("V", BTy t); ("indices", BPack l)])).
  { unfold instance. cbn -[indices_of map]. rewrite HI. reflexivity. }
  rewrite HB. clear HB HI.
  cbn -[expand map l3]. rewrite String.eqb_refl. cbn -[expand map l3].
  rewrite ?String.eqb_refl.
  match goal with |- cbind (expand ?p ?elem ?ar ?o ?k ?e ?b ?y ?x l ?s) _ = _ =>
    assert (HE : expand p elem ar o k e b y x l s = cret (map (el3 v) l)) end.
  { clear -Hl. generalize (BPack l) as bp; intro bp. induction Hl as [|i l Hi Hl IH]; [reflexivity|].
    cbn [expand].
    match goal with |- cbind ?x _ = _ => assert (HS : x = cret (l3 v, el3 v i)) end.
    { clear -Hi. unfold sval, lval, array_of, tname. cbn -[String.eqb l3 el3].
      rewrite ?String.eqb_refl. cbn -[l3 el3]. rewrite ?String.eqb_refl. destruct v; destruct i as [|[|[|[|i]]]]; try lia; reflexivity. }
    rewrite HS. cbn [cbind cret fst snd]. rewrite IH. reflexivity. }
  rewrite HE. reflexivity.
Qed.

Lemma expand4 : forall {A} (elem t : string) (arith : aop -> A -> A -> comp A) (one : A) (v : vec4 A) (l : list nat),
  Forall (fun i => i < 4)%nat l ->
  call accessor_code elem arith one "shuffle_accessor_4" (TTy elem :: TTy t :: map TIx l) (Nconv t) GNone (l4 v) =
  cret (l4 v, RObj t (map (el4 v) l)).
Proof.
  intros A elem t arith one v l Hl. unfold call, call_plain.
  assert (HI : indices_of (map TIx l) = Some l)
    by (clear Hl; induction l as [|a l IH]; [reflexivity|cbn; rewrite IH; reflexivity]).
  assert (HB : instance accessor_code "shuffle_accessor_4" (TTy elem :: TTy t :: map TIx l) =
               Some (nth 8 accessor_code (Class "" [] None None []),
                     [("T", BTy elem); ("V", BTy t); ("indices", BPack l)])).
  { unfold instance. cbn -[indices_of map]. rewrite HI. reflexivity. }
  rewrite HB. clear HB HI.
  cbn -[expand map l4]. rewrite String.eqb_refl. cbn -[expand map l4].
  rewrite ?String.eqb_refl.
  match goal with |- cbind (expand ?p ?elem ?ar ?o ?k ?e ?b ?y ?x l ?s) _ = _ =>
    assert (HE : expand p elem ar o k e b y x l s = cret (map (el4 v) l)) end.
  { clear -Hl. generalize (BPack l) as bp; intro bp. induction Hl as [|i l Hi Hl IH]; [reflexivity|].
    cbn [expand].
    match goal with |- cbind ?x _ = _ => assert (HS : x = cret (l4 v, el4 v i)) end.
    { clear -Hi. unfold sval, lval, array_of, tname. cbn -[String.eqb l4 el4].
      rewrite ?String.eqb_refl. cbn -[l4 el4]. rewrite ?String.eqb_refl. destruct v; destruct i as [|[|[|[|i]]]]; try lia; reflexivity. }
    rewrite HS. cbn [cbind cret fst snd]. rewrite IH. reflexivity. }
  rewrite HE. reflexivity.
Qed.

(** A swizzle [v.name] as written: the conversion yields an object of the class it names, whose elements
    are those at the indices, for lists of indices of every length; every other use is rejected, except
    the assignment from the same swizzle of another vector, which copies the whole vector. *)
Lemma C103_shuffle_pf : forall (S : Scalar) (d : decl) (t : string),
  (Forall (fun i => i < 2)%nat (d_indices d) -> forall v w : vec2 S,
   let c := "shuffle_accessor_2" in let l := TTy "float" :: TTy t :: map TIx (d_indices d) in
   fcall S c l (Nconv t) GNone (l2 v) = cret (l2 v, RObj t (shuffle2 d v)) /\
   fcall S c l Nassign (GAcc c l (l2 w)) (l2 v) = leaves_elements l2 (Ret w) /\
   (forall a, fcall S c l Nassign (GVal a) (l2 v) = None)) /\
  (Forall (fun i => i < 3)%nat (d_indices d) -> forall v w : vec3 S,
   let c := "shuffle_accessor_3" in let l := TTy "float" :: TTy t :: map TIx (d_indices d) in
   fcall S c l (Nconv t) GNone (l3 v) = cret (l3 v, RObj t (shuffle3 d v)) /\
   fcall S c l Nassign (GAcc c l (l3 w)) (l3 v) = leaves_elements l3 (Ret w) /\
   (forall a, fcall S c l Nassign (GVal a) (l3 v) = None)) /\
  (Forall (fun i => i < 4)%nat (d_indices d) -> forall v w : vec4 S,
   let c := "shuffle_accessor_4" in let l := TTy "float" :: TTy t :: map TIx (d_indices d) in
   fcall S c l (Nconv t) GNone (l4 v) = cret (l4 v, RObj t (shuffle4 d v)) /\
   fcall S c l Nassign (GAcc c l (l4 w)) (l4 v) = leaves_elements l4 (Ret w) /\
   (forall a, fcall S c l Nassign (GVal a) (l4 v) = None)) /\
  (Forall (fun i => i < 2)%nat (d_indices d) -> forall v w : vec2 Z,
   let c := "shuffle_accessor_2" in let l := TTy "int32_t" :: TTy t :: map TIx (d_indices d) in
   icall c l (Nconv t) GNone (l2 v) = cret (l2 v, RObj t (shuffle2 d v)) /\
   icall c l Nassign (GAcc c l (l2 w)) (l2 v) = leaves_elements l2 (Ret w) /\
   (forall a, icall c l Nassign (GVal a) (l2 v) = None)) /\
  (Forall (fun i => i < 3)%nat (d_indices d) -> forall v w : vec3 Z,
   let c := "shuffle_accessor_3" in let l := TTy "int32_t" :: TTy t :: map TIx (d_indices d) in
   icall c l (Nconv t) GNone (l3 v) = cret (l3 v, RObj t (shuffle3 d v)) /\
   icall c l Nassign (GAcc c l (l3 w)) (l3 v) = leaves_elements l3 (Ret w) /\
   (forall a, icall c l Nassign (GVal a) (l3 v) = None)) /\
  (Forall (fun i => i < 4)%nat (d_indices d) -> forall v w : vec4 Z,
   let c := "shuffle_accessor_4" in let l := TTy "int32_t" :: TTy t :: map TIx (d_indices d) in
   icall c l (Nconv t) GNone (l4 v) = cret (l4 v, RObj t (shuffle4 d v)) /\
   icall c l Nassign (GAcc c l (l4 w)) (l4 v) = leaves_elements l4 (Ret w) /\
   (forall a, icall c l Nassign (GVal a) (l4 v) = None)).
Proof.
  intros S d t.
  assert (HT : forall e, list_eqb targ_eqb (TTy e :: TTy t :: map TIx (d_indices d)) (TTy e :: TTy t :: map TIx (d_indices d)) = true).
  { intro e. cbn. rewrite !String.eqb_refl. cbn. induction (d_indices d) as [|i r IH]; [reflexivity|].
    cbn. rewrite Nat.eqb_refl. exact IH. }
  assert (HI : indices_of (map TIx (d_indices d)) = Some (d_indices d))
    by (clear HT; induction (d_indices d) as [|a r IH]; [reflexivity|cbn; rewrite IH; reflexivity]).
  split; [|split; [|split; [|split; [|split]]]]; intros H v w c l; unfold c, l, fcall, icall; clear c l;
    (split; [first [exact (expand2 _ _ _ _ v _ H) | exact (expand3 _ _ _ _ v _ H) | exact (expand4 _ _ _ _ v _ H)]|split]).
  all: try (unfold call; rewrite HT; reflexivity).
  all: intro a; unfold call, call_plain, instance; cbn -[indices_of map list_eqb]; rewrite HI; reflexivity.
Qed.

Lemma find_rebuild : forall (f : decl -> umember) l x, (forall d, u_names (f d) = d_names d) ->
  umember_of (map f l) x = option_map f (lookup l x).
Proof.
  intros f l x H; induction l as [|d l IH]; [reflexivity|]. cbn. rewrite H.
  destruct (existsb (String.eqb x) (d_names d)); [reflexivity|exact IH].
Qed.

Definition rebuild (sc sh elem : string) (vec : nat -> string) (d : decl) : umember :=
  match d_result d with
  | 1 => UM sc (TTy elem :: map TIx (d_indices d)) (d_names d)
  | k => UM sh (TTy elem :: TTy (vec k) :: map TIx (d_indices d)) (d_names d)
  end.
Lemma rebuild_names : forall sc sh e v d, u_names (rebuild sc sh e v d) = d_names d.
Proof. intros. unfold rebuild. destruct (d_result d) as [|[|k]]; reflexivity. Qed.
Lemma lookup_in : forall l x d, lookup l x = Some d -> In d l.
Proof.
  induction l as [|a l IH]; intros x d H; [discriminate|]. cbn in H.
  destruct (existsb (String.eqb x) (d_names a)); [left; congruence|right; exact (IH x d H)].
Qed.
Lemma lookup_app : forall l m x, lookup (l ++ m) x = match lookup l x with Some d => Some d | None => lookup m x end.
Proof.
  induction l as [|a l IH]; intros m x; [reflexivity|]. cbn.
  destruct (existsb (String.eqb x) (d_names a)); [reflexivity|apply IH].
Qed.
Lemma lookup_name : forall l x d, lookup l x = Some d -> In x (d_names d).
Proof.
  induction l as [|a l IH]; intros x d H; [discriminate|]. cbn in H.
  destruct (existsb (String.eqb x) (d_names a)) eqn:E; [|exact (IH x d H)].
  injection H as <-. apply existsb_exists in E as [y [Hy E]]. apply String.eqb_eq in E. subst. exact Hy.
Qed.
(** the names of the scalar members do not occur among the shuffles *)
Definition disjoint (l m : list decl) : bool :=
  forallb (fun d => forallb (fun x => match lookup l x with None => true | Some _ => false end) (d_names d)) m.
Lemma disjoint_none : forall l m x d, disjoint l m = true -> lookup m x = Some d -> lookup l x = None.
Proof.
  intros l m x d HD H. unfold disjoint in HD. rewrite forallb_forall in HD.
  specialize (HD d (lookup_in m x d H)). rewrite forallb_forall in HD.
  specialize (HD x (lookup_name m x d H)). destruct (lookup l x); [discriminate|reflexivity].
Qed.
Lemma names_general : forall {A} elem (arith : aop -> A -> A -> comp A) one vec sc sh u sca shu N,
  un_members u = map (rebuild sc sh elem vec) (sca ++ shu) -> disjoint sca shu = true ->
  forallb (fun d => match d_indices d with [i] => Nat.ltb i N && Nat.eqb (d_result d) 1 | _ => false end) sca = true ->
  forallb (fun d => forallb (fun i => Nat.ltb i N) (d_indices d) && Nat.eqb (d_result d) (List.length (d_indices d)) && Nat.leb 2 (d_result d)) shu = true ->
  (forall x d, lookup sca x = Some d -> exists i, d_indices d = [i] /\ (i < N)%nat /\
     forall n g s, use accessor_code elem arith one u x n g s = call accessor_code elem arith one sc [TTy elem; TIx i] n g s) /\
  (forall x d, lookup shu x = Some d -> Forall (fun i => i < N)%nat (d_indices d) /\ List.length (d_indices d) = d_result d /\
     forall n g s, use accessor_code elem arith one u x n g s =
       call accessor_code elem arith one sh (TTy elem :: TTy (vec (d_result d)) :: map TIx (d_indices d)) n g s) /\
  (forall x n g s, lookup sca x = None -> lookup shu x = None -> use accessor_code elem arith one u x n g s = None).
Proof.
  intros A elem arith one vec sc sh u sca shu N HU HD H1 H2. rewrite forallb_forall in H1, H2.
  split; [|split].
  - intros x d H. specialize (H1 d (lookup_in _ _ _ H)).
    destruct (d_indices d) as [|i [|? ?]] eqn:E; try discriminate. apply andb_prop in H1 as [Hi Hr].
    apply Nat.ltb_lt in Hi. apply Nat.eqb_eq in Hr. exists i. split; [reflexivity|]. split; [exact Hi|].
    intros n g s. unfold use. rewrite HU, find_rebuild, lookup_app, H by apply rebuild_names.
    cbn [option_map]. unfold rebuild. rewrite Hr, E. reflexivity.
  - intros x d H. specialize (H2 d (lookup_in _ _ _ H)). apply andb_prop in H2 as [H2 Hk]. apply andb_prop in H2 as [Hi Hr].
    apply Nat.eqb_eq in Hr. apply Nat.leb_le in Hk. split; [|split; [symmetry; exact Hr|]].
    + rewrite forallb_forall in Hi. apply Forall_forall. intros i HI. apply Nat.ltb_lt. exact (Hi i HI).
    + intros n g s. unfold use. rewrite HU, find_rebuild, lookup_app, (disjoint_none _ _ _ _ HD H), H by apply rebuild_names.
      cbn [option_map]. unfold rebuild. destruct (d_result d) as [|[|k]]; [lia|lia|reflexivity].
  - intros x n g s Ha Hb. unfold use. rewrite HU, find_rebuild, lookup_app, Ha, Hb by apply rebuild_names. reflexivity.
Qed.

(** The members of the vecN types by name, as declared in their headers: the names of the table of the
    model's scalar members denote the scalar accessor of that component, those of its swizzle table read
    the elements of the table in an object of the class with that many elements, and no other name is
    declared. *)
Lemma C103_names_vec_pf : forall (S : Scalar) (x : string),
  ((forall d, lookup vec2_scalars x = Some d -> exists i, d_indices d = [i] /\ (i < 2)%nat /\
      forall n g s, fuse S vec2_union x n g s = fcall S "scalar_accessor_2" [TTy "float"; TIx i] n g s) /\
   (forall d, lookup vec2_shuffles x = Some d -> forall v : vec2 S, List.length (d_indices d) = d_result d /\
      fuse S vec2_union x (Nconv (fvec (d_result d))) GNone (l2 v) = cret (l2 v, RObj (fvec (d_result d)) (shuffle2 d v))) /\
   (lookup vec2_scalars x = None -> lookup vec2_shuffles x = None -> forall n g s, fuse S vec2_union x n g s = None)) /\
  ((forall d, lookup vec3_scalars x = Some d -> exists i, d_indices d = [i] /\ (i < 3)%nat /\
      forall n g s, fuse S vec3_union x n g s = fcall S "scalar_accessor_3" [TTy "float"; TIx i] n g s) /\
   (forall d, lookup vec3_shuffles x = Some d -> forall v : vec3 S, List.length (d_indices d) = d_result d /\
      fuse S vec3_union x (Nconv (fvec (d_result d))) GNone (l3 v) = cret (l3 v, RObj (fvec (d_result d)) (shuffle3 d v))) /\
   (lookup vec3_scalars x = None -> lookup vec3_shuffles x = None -> forall n g s, fuse S vec3_union x n g s = None)) /\
  ((forall d, lookup vec4_scalars x = Some d -> exists i, d_indices d = [i] /\ (i < 4)%nat /\
      forall n g s, fuse S vec4_union x n g s = fcall S "scalar_accessor_4" [TTy "float"; TIx i] n g s) /\
   (forall d, lookup vec4_shuffles x = Some d -> forall v : vec4 S, List.length (d_indices d) = d_result d /\
      fuse S vec4_union x (Nconv (fvec (d_result d))) GNone (l4 v) = cret (l4 v, RObj (fvec (d_result d)) (shuffle4 d v))) /\
   (lookup vec4_scalars x = None -> lookup vec4_shuffles x = None -> forall n g s, fuse S vec4_union x n g s = None)).
Proof.
  intros S x. split; [|split].
  - destruct (names_general "float" (float_arith S) f1 fvec "scalar_accessor_2" "shuffle_accessor_2" vec2_union vec2_scalars vec2_shuffles 2)
      as [HA [HB HC]]; [vm_compute; reflexivity ..|].
    split; [exact (HA x)|split; [|intros; apply HC; assumption]].
    intros d H v. destruct (HB x d H) as [HF [HL HU]]. split; [exact HL|].
    unfold fuse. rewrite HU. exact (expand2 _ _ _ _ v _ HF).
  - destruct (names_general "float" (float_arith S) f1 fvec "scalar_accessor_3" "shuffle_accessor_3" vec3_union vec3_scalars vec3_shuffles 3)
      as [HA [HB HC]]; [vm_compute; reflexivity ..|].
    split; [exact (HA x)|split; [|intros; apply HC; assumption]].
    intros d H v. destruct (HB x d H) as [HF [HL HU]]. split; [exact HL|].
    unfold fuse. rewrite HU. exact (expand3 _ _ _ _ v _ HF).
  - destruct (names_general "float" (float_arith S) f1 fvec "scalar_accessor_4" "shuffle_accessor_4" vec4_union vec4_scalars vec4_shuffles 4)
      as [HA [HB HC]]; [vm_compute; reflexivity ..|].
    split; [exact (HA x)|split; [|intros; apply HC; assumption]].
    intros d H v. destruct (HB x d H) as [HF [HL HU]]. split; [exact HL|].
    unfold fuse. rewrite HU. exact (expand4 _ _ _ _ v _ HF).
Qed.

(** The members of the ivecN types by name, as declared in their headers: the names of the table of the
    model's scalar members denote the scalar accessor of that component, those of its swizzle table read
    the elements of the table in an object of the class with that many elements, and no other name is
    declared. *)
Lemma C103_names_ivec_pf : forall (x : string),
  ((forall d, lookup ivec2_scalars x = Some d -> exists i, d_indices d = [i] /\ (i < 2)%nat /\
      forall n g s, iuse ivec2_union x n g s = icall "scalar_accessor_2i" [TTy "int32_t"; TIx i] n g s) /\
   (forall d, lookup ivec2_shuffles x = Some d -> forall v : vec2 Z, List.length (d_indices d) = d_result d /\
      iuse ivec2_union x (Nconv (ivec (d_result d))) GNone (l2 v) = cret (l2 v, RObj (ivec (d_result d)) (shuffle2 d v))) /\
   (lookup ivec2_scalars x = None -> lookup ivec2_shuffles x = None -> forall n g s, iuse ivec2_union x n g s = None)) /\
  ((forall d, lookup ivec3_scalars x = Some d -> exists i, d_indices d = [i] /\ (i < 3)%nat /\
      forall n g s, iuse ivec3_union x n g s = icall "scalar_accessor_3i" [TTy "int32_t"; TIx i] n g s) /\
   (forall d, lookup ivec3_shuffles x = Some d -> forall v : vec3 Z, List.length (d_indices d) = d_result d /\
      iuse ivec3_union x (Nconv (ivec (d_result d))) GNone (l3 v) = cret (l3 v, RObj (ivec (d_result d)) (shuffle3 d v))) /\
   (lookup ivec3_scalars x = None -> lookup ivec3_shuffles x = None -> forall n g s, iuse ivec3_union x n g s = None)) /\
  ((forall d, lookup ivec4_scalars x = Some d -> exists i, d_indices d = [i] /\ (i < 4)%nat /\
      forall n g s, iuse ivec4_union x n g s = icall "scalar_accessor_4i" [TTy "int32_t"; TIx i] n g s) /\
   (forall d, lookup ivec4_shuffles x = Some d -> forall v : vec4 Z, List.length (d_indices d) = d_result d /\
      iuse ivec4_union x (Nconv (ivec (d_result d))) GNone (l4 v) = cret (l4 v, RObj (ivec (d_result d)) (shuffle4 d v))) /\
   (lookup ivec4_scalars x = None -> lookup ivec4_shuffles x = None -> forall n g s, iuse ivec4_union x n g s = None)).
Proof.
  intros x. split; [|split].
  - destruct (names_general "int32_t" int_arith 1%Z ivec "scalar_accessor_2i" "shuffle_accessor_2" ivec2_union ivec2_scalars ivec2_shuffles 2)
      as [HA [HB HC]]; [vm_compute; reflexivity ..|].
    split; [exact (HA x)|split; [|intros; apply HC; assumption]].
    intros d H v. destruct (HB x d H) as [HF [HL HU]]. split; [exact HL|].
    unfold iuse. rewrite HU. exact (expand2 _ _ _ _ v _ HF).
  - destruct (names_general "int32_t" int_arith 1%Z ivec "scalar_accessor_3i" "shuffle_accessor_3" ivec3_union ivec3_scalars ivec3_shuffles 3)
      as [HA [HB HC]]; [vm_compute; reflexivity ..|].
    split; [exact (HA x)|split; [|intros; apply HC; assumption]].
    intros d H v. destruct (HB x d H) as [HF [HL HU]]. split; [exact HL|].
    unfold iuse. rewrite HU. exact (expand3 _ _ _ _ v _ HF).
  - destruct (names_general "int32_t" int_arith 1%Z ivec "scalar_accessor_4i" "shuffle_accessor_4" ivec4_union ivec4_scalars ivec4_shuffles 4)
      as [HA [HB HC]]; [vm_compute; reflexivity ..|].
    split; [exact (HA x)|split; [|intros; apply HC; assumption]].
    intros d H v. destruct (HB x d H) as [HF [HL HU]]. split; [exact HL|].
    unfold iuse. rewrite HU. exact (expand4 _ _ _ _ v _ HF).
Qed.

(** [format_as] of an accessor or swizzle is its value. *)
Lemma C103_format_pf : forall (S : Scalar) (i : nat) (l : list nat) (t : string),
  ((i < 2)%nat -> Forall (fun k => k < 2)%nat l -> forall (v : vec2 S) (w : vec2 Z),
   let ff := format accessor_code "float" (float_arith S) f1 format_code in
   let fi := format accessor_code "int32_t" int_arith 1%Z format_code in
   ff "scalar_accessor_2" [TTy "float"; TIx i] (l2 v) = cret (RVal (el2 v i)) /\
   fi "scalar_accessor_2i" [TTy "int32_t"; TIx i] (l2 w) = cret (RVal (el2 w i)) /\
   ff "shuffle_accessor_2" (TTy "float" :: TTy t :: map TIx l) (l2 v) = cret (RObj t (map (el2 v) l)) /\
   fi "shuffle_accessor_2" (TTy "int32_t" :: TTy t :: map TIx l) (l2 w) = cret (RObj t (map (el2 w) l))) /\
  ((i < 3)%nat -> Forall (fun k => k < 3)%nat l -> forall (v : vec3 S) (w : vec3 Z),
   let ff := format accessor_code "float" (float_arith S) f1 format_code in
   let fi := format accessor_code "int32_t" int_arith 1%Z format_code in
   ff "scalar_accessor_3" [TTy "float"; TIx i] (l3 v) = cret (RVal (el3 v i)) /\
   fi "scalar_accessor_3i" [TTy "int32_t"; TIx i] (l3 w) = cret (RVal (el3 w i)) /\
   ff "shuffle_accessor_3" (TTy "float" :: TTy t :: map TIx l) (l3 v) = cret (RObj t (map (el3 v) l)) /\
   fi "shuffle_accessor_3" (TTy "int32_t" :: TTy t :: map TIx l) (l3 w) = cret (RObj t (map (el3 w) l))) /\
  ((i < 4)%nat -> Forall (fun k => k < 4)%nat l -> forall (v : vec4 S) (w : vec4 Z),
   let ff := format accessor_code "float" (float_arith S) f1 format_code in
   let fi := format accessor_code "int32_t" int_arith 1%Z format_code in
   ff "scalar_accessor_4" [TTy "float"; TIx i] (l4 v) = cret (RVal (el4 v i)) /\
   fi "scalar_accessor_4i" [TTy "int32_t"; TIx i] (l4 w) = cret (RVal (el4 w i)) /\
   ff "shuffle_accessor_4" (TTy "float" :: TTy t :: map TIx l) (l4 v) = cret (RObj t (map (el4 v) l)) /\
   fi "shuffle_accessor_4" (TTy "int32_t" :: TTy t :: map TIx l) (l4 w) = cret (RObj t (map (el4 w) l))).
Proof.
  intros S i l t.
  assert (HI : indices_of (map TIx l) = Some l)
    by (induction l as [|a r IH]; [reflexivity|cbn; rewrite IH; reflexivity]).
  split; [|split]; intros Hi Hl v w ff fi; unfold ff, fi; clear ff fi.
  - pose proof (expand2 "float" t (float_arith S) f1 v l Hl) as E1.
    pose proof (expand2 "int32_t" t int_arith 1%Z w l Hl) as E2. unfold call in E1, E2.
    split; [|split; [|split]].
    + destruct v; destruct i as [|[|[|[|i]]]]; try lia; reflexivity.
    + destruct w; destruct i as [|[|[|[|i]]]]; try lia; reflexivity.
    + unfold format. cbn -[call_plain indices_of map l2 el2]. rewrite HI. cbn -[call_plain indices_of map l2 el2].
      rewrite ?String.eqb_refl, E1. reflexivity.
    + unfold format. cbn -[call_plain indices_of map l2 el2]. rewrite HI. cbn -[call_plain indices_of map l2 el2].
      rewrite ?String.eqb_refl, E2. reflexivity.
  - pose proof (expand3 "float" t (float_arith S) f1 v l Hl) as E1.
    pose proof (expand3 "int32_t" t int_arith 1%Z w l Hl) as E2. unfold call in E1, E2.
    split; [|split; [|split]].
    + destruct v; destruct i as [|[|[|[|i]]]]; try lia; reflexivity.
    + destruct w; destruct i as [|[|[|[|i]]]]; try lia; reflexivity.
    + unfold format. cbn -[call_plain indices_of map l3 el3]. rewrite HI. cbn -[call_plain indices_of map l3 el3].
      rewrite ?String.eqb_refl, E1. reflexivity.
    + unfold format. cbn -[call_plain indices_of map l3 el3]. rewrite HI. cbn -[call_plain indices_of map l3 el3].
      rewrite ?String.eqb_refl, E2. reflexivity.
  - pose proof (expand4 "float" t (float_arith S) f1 v l Hl) as E1.
    pose proof (expand4 "int32_t" t int_arith 1%Z w l Hl) as E2. unfold call in E1, E2.
    split; [|split; [|split]].
    + destruct v; destruct i as [|[|[|[|i]]]]; try lia; reflexivity.
    + destruct w; destruct i as [|[|[|[|i]]]]; try lia; reflexivity.
    + unfold format. cbn -[call_plain indices_of map l4 el4]. rewrite HI. cbn -[call_plain indices_of map l4 el4].
      rewrite ?String.eqb_refl, E1. reflexivity.
    + unfold format. cbn -[call_plain indices_of map l4 el4]. rewrite HI. cbn -[call_plain indices_of map l4 el4].
      rewrite ?String.eqb_refl, E2. reflexivity.
Qed.

(*PROPS
(** concrete cases: [v.b = 9] on a vec3, [v.zx], [n.y %= 4],
    the copy [a.x = b.x], the rejected [n.x = 5] *)
Example C103_case :
  iuse ivec3_union "y" (Ncompound AoRem) (GVal 4%Z) [7%Z; 10%Z; 9%Z] = cret ([7%Z; 2%Z; 9%Z], RNone) /\
  iuse ivec3_union "zx" (Nconv "ivec2") GNone [7%Z; 8%Z; 9%Z] = cret ([7%Z; 8%Z; 9%Z], RObj "ivec2" [9%Z; 7%Z]) /\
  iuse ivec3_union "x" Nassign (GVal 5%Z) [7%Z; 8%Z; 9%Z] = None /\
  iuse ivec3_union "x" (Ncompound AoDiv) (GVal 0%Z) [7%Z; 8%Z; 9%Z] = Some Undefined /\
  (forall (S : Scalar) (a b c d : S), fuse S vec3_union "b" Nassign (GVal d) [a; b; c] = cret ([a; b; d], RNone)) /\
  (forall (S : Scalar) (a b c d e f : S), fuse S vec3_union "x" Nassign (GAcc "scalar_accessor_3" [TTy "float"; TIx 0] [d; e; f]) [a; b; c] = cret ([d; e; f], RNone)).
Proof. repeat split; reflexivity. Qed.
PROPS*)
