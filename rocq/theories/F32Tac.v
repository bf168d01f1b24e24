(** * Computing with concrete binary32 values

    Equality of binary32 data is decided on Flocq's proof-free [spec_float]
    view, which the kernel can compute. *)
From Coq Require Import ZArith Bool List.
From Flocq Require Import Core IEEE754.BinarySingleNaN.
From Verif Require Import Scalar IEEE32 Outcome Types Spec.
Import ListNotations.

Definition sf (x : f32) := B2SF x.

Lemma map_sf_inj : forall l l' : list f32, map sf l = map sf l' -> l = l'.
Proof.
  induction l as [|a l IH]; intros [|b l']; cbn; intros H; try discriminate H; [reflexivity|].
  injection H as Ha Hl. f_equal; [now apply B2SF_inj | now apply IH].
Qed.

Lemma l2_inj {A} (u v : vec2 A) : l2 u = l2 v -> u = v.
Proof. destruct u, v; cbv; congruence. Qed.
Lemma l3_inj {A} (u v : vec3 A) : l3 u = l3 v -> u = v.
Proof. destruct u, v; cbv; congruence. Qed.
Lemma l4_inj {A} (u v : vec4 A) : l4 u = l4 v -> u = v.
Proof. destruct u, v; cbv; congruence. Qed.
Lemma lq_inj {A} (u v : quat A) : lq u = lq v -> u = v.
Proof. destruct u, v; cbv; congruence. Qed.
Lemma lm2_inj {A} (u v : mat2 A) : lm2 u = lm2 v -> u = v.
Proof. destruct u as [[] []], v as [[] []]; cbv; congruence. Qed.
Lemma lm3_inj {A} (u v : mat3 A) : lm3 u = lm3 v -> u = v.
Proof. destruct u as [[] [] []], v as [[] [] []]; cbv; congruence. Qed.
Lemma lm4_inj {A} (u v : mat4 A) : lm4 u = lm4 v -> u = v.
Proof. destruct u as [[] [] [] []], v as [[] [] [] []]; cbv; congruence. Qed.

Lemma f32_by_sf (x y : f32) : sf x = sf y -> x = y.
Proof. apply B2SF_inj. Qed.
Lemma l2_by_sf (u v : vec2 f32) : map sf (l2 u) = map sf (l2 v) -> u = v.
Proof. intros; now apply l2_inj, map_sf_inj. Qed.
Lemma l3_by_sf (u v : vec3 f32) : map sf (l3 u) = map sf (l3 v) -> u = v.
Proof. intros; now apply l3_inj, map_sf_inj. Qed.
Lemma l4_by_sf (u v : vec4 f32) : map sf (l4 u) = map sf (l4 v) -> u = v.
Proof. intros; now apply l4_inj, map_sf_inj. Qed.
Lemma lq_by_sf (u v : quat f32) : map sf (lq u) = map sf (lq v) -> u = v.
Proof. intros; now apply lq_inj, map_sf_inj. Qed.
Lemma lm2_by_sf (u v : mat2 f32) : map sf (lm2 u) = map sf (lm2 v) -> u = v.
Proof. intros; now apply lm2_inj, map_sf_inj. Qed.
Lemma lm3_by_sf (u v : mat3 f32) : map sf (lm3 u) = map sf (lm3 v) -> u = v.
Proof. intros; now apply lm3_inj, map_sf_inj. Qed.
Lemma lm4_by_sf (u v : mat4 f32) : map sf (lm4 u) = map sf (lm4 v) -> u = v.
Proof. intros; now apply lm4_inj, map_sf_inj. Qed.

(** Decides an equality of concrete binary32 values, vectors, matrices or lists. *)
Ltac f32_eq :=
  cbv zeta;
  first [ apply l2_by_sf | apply l3_by_sf | apply l4_by_sf | apply lq_by_sf
        | apply lm2_by_sf | apply lm3_by_sf | apply lm4_by_sf | apply map_sf_inj
        | apply f32_by_sf ];
  vm_compute; reflexivity.
(** Decides a disequality of such values. *)
Ltac f32_neq :=
  cbv zeta; let H := fresh in
  intros H;
  first [ apply (f_equal (fun v : vec2 f32 => map sf (l2 v))) in H
        | apply (f_equal (fun v : vec3 f32 => map sf (l3 v))) in H
        | apply (f_equal (fun v : vec4 f32 => map sf (l4 v))) in H
        | apply (f_equal (fun v : quat f32 => map sf (lq v))) in H
        | apply (f_equal (fun v : mat2 f32 => map sf (lm2 v))) in H
        | apply (f_equal (fun v : mat3 f32 => map sf (lm3 v))) in H
        | apply (f_equal (fun v : mat4 f32 => map sf (lm4 v))) in H
        | apply (f_equal (map sf)) in H
        | apply (f_equal sf) in H ];
  vm_compute in H; discriminate H.
