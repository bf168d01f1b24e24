(** * Rotation matrices and unit quaternions *)
From Coq Require Import ZArith Bool Reals List Lra.
From Flocq Require Import Core.
From Verif Require Import Scalar F32Tac RealInst Outcome Types Spec SpecR SpecMat SpecGeo RealTac MatTac
  ModelVec ModelQuat ModelGeom ModelMat ModelMatrix ModelQuaternion ModelTransform PfMat PfQuat.
Import ListNotations.
Local Open Scope R_scope.

(** orthonormality and the cofactor equations of a rotation matrix with columns
    (a,b,c), (d,e,f), (g,h,i) *)
Definition rot_eqs (a b c d e f g h i : R) : Prop :=
  (a*a + b*b + c*c = 1 /\ d*d + e*e + f*f = 1 /\ g*g + h*h + i*i = 1 /\
   a*d + b*e + c*f = 0 /\ a*g + b*h + c*i = 0 /\ d*g + e*h + f*i = 0) /\
  (a*a + d*d + g*g = 1 /\ b*b + e*e + h*h = 1 /\ c*c + f*f + i*i = 1 /\
   a*b + d*e + g*h = 0 /\ a*c + d*f + g*i = 0 /\ b*c + e*f + h*i = 0) /\
  (e*i - f*h = a /\ f*g - d*i = b /\ d*h - e*g = c /\
   h*c - i*b = d /\ i*a - g*c = e /\ g*b - h*a = f /\
   b*f - c*e = g /\ c*d - a*f = h /\ a*e - b*d = i).

Lemma rotation_eqs a b c d e f g h i :
  rotation 3 [a; b; c; d; e; f; g; h; i] -> rot_eqs a b c d e f g h i.
Proof.
  intros (O & P & D). set (m := M3 (V3 a b c) (V3 d e f) (V3 g h i) : mat3 RS).
  assert (Dm : leibniz 3 (lm3 m) = 1) by exact D.
  assert (T : adjugate3 RS m = transpose3 RS m).
  { destruct ring3 as (_&_&_&_&_&_&_&_&As&_&_&Ur&Ul&_).
    transitivity (mat3_mul RS (adjugate3 RS m) (mat3_default RS)); [symmetry; apply Ur|].
    transitivity (mat3_mul RS (adjugate3 RS m) (mat3_mul RS m (transpose3 RS m))).
    { f_equal. symmetry. apply lm3_inj. etransitivity; [|exact P]. ms. parts; ring. }
    rewrite <- As. rewrite (proj1 (adj3 m)).
    transitivity (mat3_mul RS (mat3_mul_sc RS (mat3_default RS) 1) (transpose3 RS m)); [do 2 f_equal; exact Dm|]. ms. parts; ring. }
  ms_in O. ms_in P. ms_in T. injection T; intros; clear T. injection O; intros; clear O. injection P; intros; clear P.
  unfold rot_eqs. ands; lra.
Qed.

(** every rotation matrix comes from a unit quaternion *)
Section Surjective.
Variables a b c d e f g h i : R.
Hypothesis E : rot_eqs a b c d e f g h i.

Ltac eqs := destruct E as ((?&?&?&?&?&?) & (?&?&?&?&?&?) & (?&?&?&?&?&?&?&?&?)).
(** [r] is the square root of [t]; all entries are polynomials over 4 t *)
Ltac entry r t := unfold Rdiv; rewrite ?Rinv_mult;
  match goal with |- ?l = ?x => apply Rmult_eq_reg_l with t; [|lra] end.

Lemma from_quat q : qn q = 1 -> forall l r, l = lm3 (mat3_cast RS q) -> r = l -> r = lm3 (mat3_cast RS q).
Proof. congruence. Qed.

Lemma sqrt_pos_eq t : 0 < t -> 0 < sqrt t /\ sqrt t * sqrt t = t.
Proof. intros H. split; [now apply sqrt_lt_R0|apply sqrt_sqrt; lra]. Qed.

Lemma div_eq x y z : z <> 0 -> x = y * z -> x / z = y.
Proof. intros N ->. field. exact N. Qed.

Ltac surj r t Rr :=
  let S := fresh in let S2 := fresh in let S3 := fresh in let S4 := fresh in let k := fresh "k" in let Ek := fresh in
  assert (S : forall x y, x / (2 * r) * (y / (2 * r)) = x * y / (4 * t)) by (intros; rewrite <- Rr; field; lra);
  assert (S2 : forall x, r / 2 * (x / (2 * r)) = x / 4) by (intros; field; lra);
  assert (S3 : forall x, x / (2 * r) * (r / 2) = x / 4) by (intros; field; lra);
  assert (S4 : r / 2 * (r / 2) = t / 4) by (rewrite <- Rr; field);
  remember t as k eqn:Ek;
  split; ms; rewrite ?S, ?S2, ?S3, ?S4; clear S S2 S3 S4; parts; (field_simplify_eq; [subst k; lra|lra]).

Lemma surj_w : 0 < 1 + a + e + i -> exists q, qn q = 1 /\ lm3 (mat3_cast RS q) = [a; b; c; d; e; f; g; h; i].
Proof.
  intros P. eqs. destruct (sqrt_pos_eq _ P) as [Rp Rr]. revert P Rp Rr. generalize (sqrt (1 + a + e + i)). intros r P Rp Rr.
  exists (Quat ((f - h) / (2 * r)) ((g - c) / (2 * r)) ((b - d) / (2 * r)) (r / 2)). surj r (1 + a + e + i) Rr.
Qed.
Lemma surj_x : 0 < 1 + a - e - i -> exists q, qn q = 1 /\ lm3 (mat3_cast RS q) = [a; b; c; d; e; f; g; h; i].
Proof.
  intros P. eqs. destruct (sqrt_pos_eq _ P) as [Rp Rr]. revert P Rp Rr. generalize (sqrt (1 + a - e - i)). intros r P Rp Rr.
  exists (Quat (r / 2) ((b + d) / (2 * r)) ((g + c) / (2 * r)) ((f - h) / (2 * r))). surj r (1 + a - e - i) Rr.
Qed.
Lemma surj_y : 0 < 1 - a + e - i -> exists q, qn q = 1 /\ lm3 (mat3_cast RS q) = [a; b; c; d; e; f; g; h; i].
Proof.
  intros P. eqs. destruct (sqrt_pos_eq _ P) as [Rp Rr]. revert P Rp Rr. generalize (sqrt (1 - a + e - i)). intros r P Rp Rr.
  exists (Quat ((b + d) / (2 * r)) (r / 2) ((f + h) / (2 * r)) ((g - c) / (2 * r))). surj r (1 - a + e - i) Rr.
Qed.
Lemma surj_z : 0 < 1 - a - e + i -> exists q, qn q = 1 /\ lm3 (mat3_cast RS q) = [a; b; c; d; e; f; g; h; i].
Proof.
  intros P. eqs. destruct (sqrt_pos_eq _ P) as [Rp Rr]. revert P Rp Rr. generalize (sqrt (1 - a - e + i)). intros r P Rp Rr.
  exists (Quat ((g + c) / (2 * r)) ((f + h) / (2 * r)) (r / 2) ((b - d) / (2 * r))). surj r (1 - a - e + i) Rr.
Qed.
End Surjective.

Lemma lm3_ex (m : mat3 R) : exists a b c d e f g h i, m = M3 (V3 a b c) (V3 d e f) (V3 g h i).
Proof. destruct m as [[a b c] [d e f] [g h i]]. now exists a, b, c, d, e, f, g, h, i. Qed.

Lemma rotation_from_quat (m : mat3 R) : rotation 3 (lm3 m) -> exists q, unit_quat q /\ mat3_cast RS q = m.
Proof.
  destruct (lm3_ex m) as (a & b & c & d & e & f & g & h & i & ->). intros H. apply rotation_eqs in H.
  assert (S : exists q, qn q = 1 /\ lm3 (mat3_cast RS q) = [a; b; c; d; e; f; g; h; i]).
  { destruct (Rlt_le_dec 0 (1 + a + e + i)); [now apply surj_w|].
    destruct (Rlt_le_dec 0 (1 + a - e - i)); [now apply surj_x|].
    destruct (Rlt_le_dec 0 (1 - a + e - i)); [now apply surj_y|].
    apply surj_z; [exact H|lra]. }
  destruct S as (q & N & Q). exists q. split; [now apply unit_qn|]. apply lm3_inj. exact Q.
Qed.

Lemma mat3_cast_rotation q : unit_quat q -> rotation 3 (lm3 (mat3_cast RS q)).
Proof.
  intros U. apply unit_qn in U. destruct q as [x y z w]. unfold qn in U; cbn [qx qy qz qw] in U.
  assert (W : w * w = 1 - x * x - y * y - z * z) by lra.
  unfold rotation. ands.
  - ms. parts; ring_simplify; replace (w ^ 2) with (1 - x * x - y * y - z * z) by (rewrite <- W; ring); ring.
  - ms. parts; ring_simplify; replace (w ^ 2) with (1 - x * x - y * y - z * z) by (rewrite <- W; ring); ring.
  - ms. ring_simplify. replace (w ^ 2) with (1 - x * x - y * y - z * z) by (rewrite <- W; ring). ring.
Qed.

Lemma sqrt_sq4 c : sqrt (4 * (c * c) - 1 + 1) = 2 * Rabs c.
Proof.
  replace (4 * (c * c) - 1 + 1) with (Rsqr (2 * c)) by (unfold Rsqr; ring). rewrite sqrt_Rsqr_abs, Rabs_mult, (Rabs_pos_eq 2) by lra.
  reflexivity.
Qed.

Lemma cast_pm q : unit_quat q -> quat_cast3 RS (mat3_cast RS q) = q \/ quat_cast3 RS (mat3_cast RS q) = quat_neg RS q.
Proof.
  intros U. apply unit_qn in U. destruct q as [x y z w]. unfold qn in U; cbn [qx qy qz qw] in U.
  pose proof (Rle_0_sqr x). pose proof (Rle_0_sqr y). pose proof (Rle_0_sqr z). pose proof (Rle_0_sqr w). unfold Rsqr in *.
  ms.
  repeat match goal with
  | |- context [1 - 2 * (y * y + z * z) - (1 - 2 * (x * x + z * z)) - (1 - 2 * (x * x + y * y))] =>
      replace (1 - 2 * (y * y + z * z) - (1 - 2 * (x * x + z * z)) - (1 - 2 * (x * x + y * y))) with (4 * (x * x) - 1) by ring
  | |- context [1 - 2 * (x * x + z * z) - (1 - 2 * (y * y + z * z)) - (1 - 2 * (x * x + y * y))] =>
      replace (1 - 2 * (x * x + z * z) - (1 - 2 * (y * y + z * z)) - (1 - 2 * (x * x + y * y))) with (4 * (y * y) - 1) by ring
  | |- context [1 - 2 * (x * x + y * y) - (1 - 2 * (y * y + z * z)) - (1 - 2 * (x * x + z * z))] =>
      replace (1 - 2 * (x * x + y * y) - (1 - 2 * (y * y + z * z)) - (1 - 2 * (x * x + z * z))) with (4 * (z * z) - 1) by ring
  | |- context [1 - 2 * (y * y + z * z) + (1 - 2 * (x * x + z * z)) + (1 - 2 * (x * x + y * y))] =>
      replace (1 - 2 * (y * y + z * z) + (1 - 2 * (x * x + z * z)) + (1 - 2 * (x * x + y * y))) with (4 * (w * w) - 1) by lra
  end.
  rbool; try lra; rewrite sqrt_sq4;
    match goal with |- context [Rabs ?c] => assert (c <> 0) by (intros ->; lra);
      destruct (Rlt_le_dec 0 c); [left; rewrite (Rabs_pos_eq c) by lra|right; rewrite (Rabs_left1 c) by lra] end;
    parts; field; assumption.
Qed.

Lemma orient_eq (a b c d e f g h i : R) : orientation_of RS (M3 (V3 a b c) (V3 d e f) (V3 g h i)) =
  if Rlt_bool 0 (a + e + i) then
    let r := sqrt (a + e + i + 1) in Quat (5 / 10 / r * (f - h)) (5 / 10 / r * (g - c)) (5 / 10 / r * (b - d)) (5 / 10 * r)
  else if Rlt_bool a e then
    if Rlt_bool e i then let r := sqrt (i - a - e + 1) in
      Quat (5 / 10 / r * (g + c)) (5 / 10 / r * (h + f)) (5 / 10 * r) (5 / 10 / r * (b - d))
    else let r := sqrt (e - i - a + 1) in
      Quat (5 / 10 / r * (d + b)) (5 / 10 * r) (5 / 10 / r * (f + h)) (5 / 10 / r * (g - c))
  else if Rlt_bool a i then let r := sqrt (i - a - e + 1) in
      Quat (5 / 10 / r * (g + c)) (5 / 10 / r * (h + f)) (5 / 10 * r) (5 / 10 / r * (b - d))
    else let r := sqrt (a - e - i + 1) in
      Quat (5 / 10 * r) (5 / 10 / r * (b + d)) (5 / 10 / r * (c + g)) (5 / 10 / r * (f - h)).
Proof.
  unfold orientation_of, sgt. cbv zeta. cbn [col3 m3c0 m3c1 m3c2 x3 y3 z3]. change (@slt RS) with Rlt_bool. change (@sadd RS) with Rplus.
  change (@slit RS 0 0) with 0.
  destruct (Rlt_bool 0 (a + e + i)); [reflexivity|].
  destruct (Rlt_bool a e).
  - change (at3 (M3 (V3 a b c) (V3 d e f) (V3 g h i)) 1 1) with e. destruct (Rlt_bool e i); reflexivity.
  - change (at3 (M3 (V3 a b c) (V3 d e f) (V3 g h i)) 0 0) with a. destruct (Rlt_bool a i); reflexivity.
Qed.

Lemma orient_pm q : unit_quat q -> orientation_of RS (mat3_cast RS q) = q \/ orientation_of RS (mat3_cast RS q) = quat_neg RS q.
Proof.
  intros U. apply unit_qn in U. destruct q as [x y z w]. unfold qn in U; cbn [qx qy qz qw] in U.
  pose proof (Rle_0_sqr x). pose proof (Rle_0_sqr y). pose proof (Rle_0_sqr z). pose proof (Rle_0_sqr w). unfold Rsqr in *.
  unfold mat3_cast. rewrite orient_eq. ms.
  repeat match goal with
  | |- context [1 - 2 * (y * y + z * z) - (1 - 2 * (x * x + z * z)) - (1 - 2 * (x * x + y * y))] =>
      replace (1 - 2 * (y * y + z * z) - (1 - 2 * (x * x + z * z)) - (1 - 2 * (x * x + y * y))) with (4 * (x * x) - 1) by ring
  | |- context [1 - 2 * (x * x + z * z) - (1 - 2 * (x * x + y * y)) - (1 - 2 * (y * y + z * z))] =>
      replace (1 - 2 * (x * x + z * z) - (1 - 2 * (x * x + y * y)) - (1 - 2 * (y * y + z * z))) with (4 * (y * y) - 1) by ring
  | |- context [1 - 2 * (x * x + y * y) - (1 - 2 * (y * y + z * z)) - (1 - 2 * (x * x + z * z))] =>
      replace (1 - 2 * (x * x + y * y) - (1 - 2 * (y * y + z * z)) - (1 - 2 * (x * x + z * z))) with (4 * (z * z) - 1) by ring
  | |- context [1 - 2 * (y * y + z * z) + (1 - 2 * (x * x + z * z)) + (1 - 2 * (x * x + y * y))] =>
      replace (1 - 2 * (y * y + z * z) + (1 - 2 * (x * x + z * z)) + (1 - 2 * (x * x + y * y))) with (4 * (w * w) - 1) by lra
  end.
  rbool; rewrite sqrt_sq4;
    match goal with |- context [Rabs ?c] => assert (c <> 0) by (intros ->; lra);
      destruct (Rlt_le_dec 0 c); [left; rewrite (Rabs_pos_eq c) by lra|right; rewrite (Rabs_left1 c) by lra] end;
    parts; field; assumption.
Qed.

Lemma mat3_ext (a b : mat3 R) : (forall v, mat3_mul_vec RS a v = mat3_mul_vec RS b v) -> a = b.
Proof.
  intros H. pose proof (H (V3 1 0 0)) as H0. pose proof (H (V3 0 1 0)) as H1. pose proof (H (V3 0 0 1)) as H2. clear H.
  vdestruct. ms_in H0. ms_in H1. ms_in H2. injection H0; intros. injection H1; intros. injection H2; intros. parts; lra.
Qed.
Lemma mat3_cast_act q v : mat3_mul_vec RS (mat3_cast RS q) v = quat_mul_vec RS q v.
Proof. vdestruct. ms. parts; ring. Qed.
Lemma mul_is_ham p q : quat_mul RS p q = ham p q.
Proof. vdestruct; ms; parts; field. Qed.
Lemma unit_mul p q : unit_quat p -> unit_quat q -> unit_quat (quat_mul RS p q).
Proof. intros U V. apply unit_qn. rewrite mul_is_ham, qn_ham, (proj1 (unit_qn p) U), (proj1 (unit_qn q) V). ring. Qed.
Lemma unit_neg q : unit_quat q -> unit_quat (quat_neg RS q).
Proof. intros U. apply unit_qn. apply unit_qn in U. rewrite <- U. vdestruct. ms. ring. Qed.
Lemma mat3_cast_neg q : mat3_cast RS (quat_neg RS q) = mat3_cast RS q.
Proof. vdestruct. ms. parts; ring. Qed.
Lemma cast_rotation (m : mat3 R) : rotation 3 (lm3 m) -> unit_quat (quat_cast3 RS m) /\ mat3_cast RS (quat_cast3 RS m) = m.
Proof.
  intros H. destruct (rotation_from_quat m H) as (q & U & <-).
  destruct (cast_pm q U) as [E|E]; rewrite E; split; auto using unit_neg, mat3_cast_neg.
Qed.
Lemma orient_rotation (m : mat3 R) : rotation 3 (lm3 m) -> unit_quat (orientation_of RS m) /\ mat3_cast RS (orientation_of RS m) = m.
Proof.
  intros H. destruct (rotation_from_quat m H) as (q & U & <-).
  destruct (orient_pm q U) as [E|E]; rewrite E; split; auto using unit_neg, mat3_cast_neg.
Qed.
