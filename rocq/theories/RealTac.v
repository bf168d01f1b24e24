(** * Reducing the model over the real numbers *)
From Coq Require Import ZArith Bool Reals List Lra Lia.
From Flocq Require Import Core.
From Verif Require Import Scalar RealInst Outcome Types Spec SpecR.
Import ListNotations.
Local Open Scope R_scope.

(** Computes everything but the operations on reals. *)
Ltac rs := cbv -[Rplus Rmult Rminus Ropp Rdiv Rinv sqrt Rabs IZR Rlt_bool Rle_bool Req_bool Zfloor
  Rlt Rle Rgt Rge not sin cos tan asin acos atan Ratan2 Rpower Rpow exp ln PI iff zeros norm ip tangential].
Ltac rs_in H := cbv -[Rplus Rmult Rminus Ropp Rdiv Rinv sqrt Rabs IZR Rlt_bool Rle_bool Req_bool Zfloor
  Rlt Rle Rgt Rge not sin cos tan asin acos atan Ratan2 Rpower Rpow exp ln PI iff zeros norm ip tangential] in H.

Ltac rbool :=
  repeat match goal with
  | |- context [Rlt_bool ?a ?b] => destruct (Rlt_bool_spec a b)
  | |- context [Rle_bool ?a ?b] => destruct (Rle_bool_spec a b)
  | |- context [Req_bool ?a ?b] => destruct (Req_bool_spec a b)
  end.

Ltac vdestruct :=
  repeat match goal with
  | v : vec2 _ |- _ => destruct v as [?e ?e]
  | v : vec3 _ |- _ => destruct v as [?e ?e ?e]
  | v : vec4 _ |- _ => destruct v as [?e ?e ?e ?e]
  | v : quat _ |- _ => destruct v as [?e ?e ?e ?e]
  | v : mat2 _ |- _ => destruct v as [[?e ?e] [?e ?e]]
  | v : mat3 _ |- _ => destruct v as [[?e ?e ?e] [?e ?e ?e] [?e ?e ?e]]
  | v : mat4 _ |- _ => destruct v as [[?e ?e ?e ?e] [?e ?e ?e ?e] [?e ?e ?e ?e] [?e ?e ?e ?e]]
  end.

Ltac ands := repeat match goal with |- _ /\ _ => split end.

(** ** Lists of reals *)
Lemma ip_comm u v : ip u v = ip v u.
Proof.
  unfold ip. revert v; induction u as [|a u IH]; intros [|b v]; cbn; try reflexivity. rewrite IH. ring.
Qed.
Lemma ip_add_l u v w : length u = length v -> ip (zip Rplus u v) w = ip u w + ip v w.
Proof.
  unfold ip. revert v w; induction u as [|a u IH]; intros [|b v] [|c w]; cbn; intros E; try discriminate; try ring.
  injection E as E. rewrite (IH v w E). ring.
Qed.
Lemma ip_sub_l u v w : length u = length v -> ip (zip Rminus u v) w = ip u w - ip v w.
Proof.
  unfold ip. revert v w; induction u as [|a u IH]; intros [|b v] [|c w]; cbn; intros E; try discriminate; try ring.
  injection E as E. rewrite (IH v w E). ring.
Qed.
Lemma ip_scale_l a u v : ip (map (Rmult a) u) v = a * ip u v.
Proof.
  unfold ip. revert v; induction u as [|b u IH]; intros [|c v]; cbn; try ring. rewrite IH. ring.
Qed.
Lemma ip_sub_r u v w : length u = length v -> ip w (zip Rminus u v) = ip w u - ip w v.
Proof. intros. rewrite !(ip_comm w). now apply ip_sub_l. Qed.
Lemma ip_scale_r a u v : ip u (map (Rmult a) v) = a * ip u v.
Proof. rewrite !(ip_comm u). apply ip_scale_l. Qed.
Lemma ip_pos u : 0 <= ip u u.
Proof.
  unfold ip. induction u as [|a u IH]; cbn; [lra|]. assert (0 <= a * a) by nra. lra.
Qed.
Lemma ip_zero u : ip u u = 0 <-> zeros u.
Proof.
  unfold zeros. induction u as [|a u IH].
  - cbn. split; [constructor|reflexivity].
  - pose proof (ip_pos u) as P. change (ip (a :: u) (a :: u)) with (a * a + ip u u). split.
    + intros E. assert (0 <= a * a) by nra. assert (a * a = 0) by lra. assert (a = 0) by nra.
      constructor; [assumption|]. apply IH. lra.
    + intros F. inversion F as [|? ? Ha Hu]; subst. rewrite (proj2 IH Hu). ring.
Qed.
Lemma ip_zeros_l u v : zeros u -> ip u v = 0.
Proof.
  unfold zeros, ip. revert v; induction u as [|a u IH]; intros [|b v] Z; cbn; try reflexivity.
  inversion Z; subst. rewrite IH by assumption. ring.
Qed.
Lemma zip_len {A B C} (f : A -> B -> C) u v : length u = length v -> length (zip f u v) = length u.
Proof. revert v; induction u as [|a u IH]; intros [|b v]; cbn; try congruence. intros E. now rewrite IH by congruence. Qed.

Lemma cauchy_schwarz u v : length u = length v -> ip u v * ip u v <= ip u u * ip v v.
Proof.
  intros E. destruct (Rle_lt_or_eq_dec 0 (ip v v) (ip_pos v)) as [P|P].
  - set (w := zip Rminus (map (Rmult (ip v v)) u) (map (Rmult (ip u v)) v)).
    assert (Ew : length (map (Rmult (ip v v)) u) = length (map (Rmult (ip u v)) v)) by (now rewrite !map_length).
    assert (H : ip w w = ip v v * (ip v v * ip u u - ip u v * ip u v)).
    { unfold w. rewrite ip_sub_l by exact Ew. rewrite !ip_sub_r by exact Ew.
      rewrite !ip_scale_l, !ip_scale_r, (ip_comm v u). ring. }
    pose proof (ip_pos w) as Q. rewrite H in Q.
    assert (0 <= ip v v * ip u u - ip u v * ip u v); [|lra].
    apply Rmult_le_reg_l with (ip v v); [exact P|]. lra.
  - symmetry in P. rewrite P. apply ip_zero in P. rewrite (ip_comm u v), (ip_zeros_l v u P). lra.
Qed.
Lemma norm_sq u : norm u * norm u = ip u u.
Proof. unfold norm. apply sqrt_sqrt, ip_pos. Qed.
Lemma norm_pos u : 0 <= norm u.
Proof. apply sqrt_pos. Qed.
Lemma norm_zero u : norm u = 0 <-> zeros u.
Proof.
  rewrite <- ip_zero, <- norm_sq. split; [intros ->; ring|]. intros E. nra.
Qed.
Lemma norm_scale a u : norm (map (Rmult a) u) = Rabs a * norm u.
Proof.
  unfold norm. rewrite ip_scale_l, ip_scale_r, <- Rmult_assoc.
  rewrite sqrt_mult; [|nra|apply ip_pos]. f_equal. apply (sqrt_Rsqr_abs a).
Qed.
Lemma norm_triangle u v : length u = length v -> norm (zip Rplus u v) <= norm u + norm v.
Proof.
  intros E. pose proof (norm_pos u). pose proof (norm_pos v). pose proof (norm_pos (zip Rplus u v)).
  apply Rsqr_incr_0; try lra. unfold Rsqr. rewrite norm_sq.
  rewrite ip_add_l by exact E. rewrite (ip_comm u), (ip_comm v), !ip_add_l by exact E.
  pose proof (cauchy_schwarz u v E) as C. rewrite <- !norm_sq in *.
  rewrite (ip_comm v u). assert (ip u v <= norm u * norm v) by (apply Rsqr_incr_0_var; unfold Rsqr; nra). nra.
Qed.
Lemma norm1_ip u : norm u = 1 <-> ip u u = 1.
Proof.
  split; [intros E; rewrite <- norm_sq, E; ring|]. intros E. unfold norm. rewrite E. apply sqrt_1.
Qed.
Lemma zeros_scale u a : a <> 0 -> zeros (map (Rmult a) u) <-> zeros u.
Proof.
  intros Ha. rewrite <- !ip_zero, ip_scale_l, ip_scale_r. split; intros E; [|rewrite E; ring].
  assert (a * a <> 0) by nra. apply Rmult_integral in E. destruct E as [E|E]; [lra|].
  apply Rmult_integral in E. destruct E; [lra|assumption].
Qed.
Lemma zip_sub_zero u v : length u = length v -> zeros (zip Rminus u v) -> u = v.
Proof.
  unfold zeros. revert v; induction u as [|a u IH]; intros [|b v] E Z; cbn in *; try discriminate; [reflexivity|].
  inversion Z; subst. f_equal; [lra|]. apply IH; [congruence|assumption].
Qed.
Lemma zip_sub_self u : zeros (zip Rminus u u).
Proof. unfold zeros. induction u; cbn; constructor; [ring|assumption]. Qed.
Lemma scale_scale a b u : map (Rmult a) (map (Rmult b) u) = map (Rmult (a * b)) u.
Proof. rewrite map_map. apply map_ext. intros; ring. Qed.
Lemma scale_1 u : map (Rmult 1) u = u.
Proof. rewrite <- (map_id u) at 2. apply map_ext. intros; ring. Qed.
