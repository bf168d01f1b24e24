(** * Proofs: diffuse lighting in binary32 *)
From Coq Require Import ZArith Bool Reals List Lra Lia.
From Flocq Require Import Core IEEE754.BinarySingleNaN.
From Verif Require Import Scalar IEEE32 RealInst Types Outcome Spec SpecR SpecMat SpecGeo SpecF32 SpecErr SpecAcc SpecLight FloatBasics FloatOps
  ModelVec ModelCommon ModelGeom ModelQuat ModelQuaternion ErrLib LenLib RealTac VecErrLib.
Import ListNotations.
Local Open Scope R_scope.
(*HEADER END*)
From Verif Require Import SpecDrift SpecPlace PfQuatAcc PfLook PfDrift PfInvQ PfPlace PfQuat PfEuler DomLib.

Lemma clamp_spec L (x : f32) : finite x -> let c := clamp_f (F32 L) x (f32_lit 0 0) (f32_lit 1 0) in finite c /\ b2r c = Rmin (Rmax (b2r x) 0) 1.
Proof.
  intros F c. change c with (let m := if Bltb x (f32_lit 0 0) then f32_lit 0 0 else x in if Bltb (f32_lit 1 0) m then f32_lit 1 0 else m). clear c. cbv zeta.
  assert (F0 : finite (f32_lit 0 0)) by reflexivity. assert (E0 : b2r (f32_lit 0 0) = 0) by reflexivity. generalize fin_lit1 b2r_lit1. generalize (f32_lit 1 0). intros p1 F1 E1. revert F0 E0. generalize (f32_lit 0 0). intros p0 F0 E0.
  rewrite (bltb_b2r x p0), E0 by assumption. unfold Rmax, Rmin. case Rlt_bool_spec; intros A.
  - rewrite (bltb_b2r p1 p0), E0, E1, Rlt_bool_false by (assumption || lra). split; [exact F0|]. rewrite E0. repeat destruct Rle_dec; lra.
  - rewrite (bltb_b2r p1 x), E1 by assumption. case Rlt_bool_spec; intros B; (split; [assumption|]); repeat destruct Rle_dec; lra.
Qed.
Lemma light_near L e f a b A B : vnear e a A -> vnear f b B -> norm A = 1 -> norm B = 1 -> e <= 300 * u -> f <= 300 * u ->
  forall c : f32, c = clamp_f (F32 L) (dot3 (F32 L) a b) (f32_lit 0 0) (f32_lit 1 0) -> let w := e + f + 302/100 * u in
  finite c /\ 0 <= b2r c <= 1 /\ Rabs (b2r c - Rmax 0 (ip A B)) <= w /\ (ip A B < - w -> b2r c = 0) /\ (w < ip A B -> 0 < b2r c).
Proof.
  intros VA VB NA NB He Hf c Ec w. pose proof u_val as U. pose proof tiny_u as [T0 T1].
  assert (T2 : tiny <= / 100000 * u). { eapply Rle_trans; [exact T1|]. assert (/ IZR (2 ^ 60) <= 1) by (rewrite <- Rinv_1; apply Rinv_le_contravar; [lra|apply IZR_le; discriminate]). assert (0 < / IZR (2 ^ 60)) by (apply Rinv_0_lt_compat; now apply IZR_lt). nra. }
  destruct (near_norm _ _ _ VA) as (N1 & _ & E0). destruct (near_norm _ _ _ VB) as (N2 & _ & F0). rewrite NA in N1. rewrite NB in N2.
  assert (BB : 2 <= IZR (2 ^ 62)) by (apply IZR_le; discriminate).
  destruct VB as (LB & Fb & KB). destruct (dot_near L e a A b VA Fb ltac:(lra) ltac:(lra)) as [FD KD].
  destruct VA as (LA & Fa & KA). set (d := dot3 (F32 L) a b) in *.
  assert (KI : Rabs (ip A (vals (l3 b)) - ip A B) <= f).
  { replace (ip A (vals (l3 b)) - ip A B) with (ip A (vsub (vals (l3 b)) B)).
    - eapply Rle_trans; [apply ip_norm; [exact LA|now apply vsub_len]|]. rewrite NA, Rmult_1_l. exact KB.
    - generalize (eq_refl : length (vals (l3 b)) = 3%nat). generalize (vals (l3 b)). clear - LA LB. intros X LX. list3' X. list3' A. list3' B. unfold ip, vsub. cbn. ring. }
  assert (KW : Rabs (b2r d - ip A B) <= w).
  { apply Rabs_le_inv in KI. apply Rabs_le_inv in KD. pose proof (norm_nn (vals (l3 a))) as P1. pose proof (norm_nn (vals (l3 b))) as P2.
    assert (Q : (e + 3001 / 1000 * u * norm (vals (l3 a))) * norm (vals (l3 b)) + 3 * tiny <= e + 302/100 * u).
    { set (x := norm (vals (l3 a))) in *. set (y := norm (vals (l3 b))) in *. clearbody x y. apply Rle_trans with ((e + 3001/1000 * u * (1 + 300 * u)) * (1 + 300 * u) + 3 * tiny); [|nra].
      apply Rplus_le_compat_r. apply Rmult_le_compat; try lra; [apply Rplus_le_le_0_compat; [lra|]; apply Rmult_le_pos; lra|]. apply Rplus_le_compat_l. apply Rmult_le_compat_l; lra. }
    apply Rabs_le. unfold w. lra. }
  destruct (clamp_spec L d FD) as [FC EC]. cbv zeta in FC, EC. rewrite <- Ec in FC, EC. split; [exact FC|]. clear - EC KW NA NB LA LB. apply Rabs_le_inv in KW.
  assert (I1 : ip A B <= 1). { pose proof (ip_norm A B LA LB) as H. rewrite NA, NB in H. apply Rabs_le_inv in H. lra. }
  rewrite EC. clearbody w. set (y := ip A B) in *. set (x := b2r d) in *. clearbody x y. unfold Rmin, Rmax. repeat destruct Rle_dec; (split; [lra|split; [apply Rabs_le; lra|split; intros; lra]]).
Qed.

Lemma diffuse_eq L n l : diffuse L n l = clamp_f (F32 L) (dot3 (F32 L) (normalize3 (F32 L) n) (normalize3 (F32 L) l)) (f32_lit 0 0) (f32_lit 1 0).
Proof. unfold diffuse. reflexivity. Qed.
Lemma unit_ip A B : length A = 3%nat -> length B = 3%nat -> 0 < norm A -> 0 < norm B -> ip (unit_of A) (unit_of B) = cosine A B.
Proof. intros LA LB PA PB. unfold cosine, unit_of. set (a := norm A) in *. set (b := norm B) in *. clearbody a b. list3' A. list3' B. unfold ip, vscale. cbn. field. lra. Qed.
Lemma tiny_lt : 0 < tiny <= / 100000 * u.
Proof. pose proof u_val as U. pose proof tiny_u as [T0 T1]. split; [exact T0|]. eapply Rle_trans; [exact T1|]. assert (/ IZR (2 ^ 60) <= 1) by (rewrite <- Rinv_1; apply Rinv_le_contravar; [lra|apply IZR_le; discriminate]). assert (0 < / IZR (2 ^ 60)) by (apply Rinv_0_lt_compat; now apply IZR_lt). nra. Qed.
Lemma range_pos lo hi v : 0 < lo -> lit_range lo hi v -> 0 < norm (vals (l3 v)).
Proof. intros P (_ & H). lra. Qed.
(** The diffuse term clamp(dot(normalize(n), normalize(l)), 0, 1) is a number in [0, 1] within 19 half-ulps of the cosine of the angle between n and l, or of 0
    where that is negative; a face turned away by more than that is exactly dark and one turned towards the light by more than that is lit. *)
Lemma C109_diffuse_pf : forall (L : Libm) (n l : vec3 f32), lit_range (/ IZR (2 ^ 48)) (IZR (2 ^ 62)) n -> lit_range (/ IZR (2 ^ 48)) (IZR (2 ^ 62)) l ->
  let c := diffuse L n l in let k := cosine (vals (l3 n)) (vals (l3 l)) in let w := 19 * ulp_half in
  finite c /\ 0 <= b2r c <= 1 /\ Rabs (b2r c - Rmax 0 k) <= w /\ (k < - w -> b2r c = 0) /\ (w < k -> 0 < b2r c).
Proof.
  intros L n l Hn Hl c k w. pose proof (diffuse_eq L n l : c = _) as DE. clearbody c. pose proof u_val as U. pose proof tiny_lt as T.
  assert (PI : 0 < / IZR (2 ^ 48)) by (apply Rinv_0_lt_compat; now apply IZR_lt).
  pose proof (range_pos _ _ _ PI Hn) as PN. pose proof (range_pos _ _ _ PI Hl) as PL. destruct Hn as [Fn Hn]. destruct Hl as [Fl Hl].
  assert (SELF : forall v : vec3 f32, all_finite (l3 v) -> vnear 0 v (vals (l3 v))).
  { clear. intros v Fv. split; [reflexivity|]. split; [exact Fv|]. right. destruct v as [x y z]. unfold vsub, vals, l3. cbn [map zip x3 y3 z3]. rewrite !(Rminus_diag_eq _ _ eq_refl). apply norm000. }
  pose proof (normalize_near L 0 n _ (SELF n Fn) PN Hn) as VN. pose proof (normalize_near L 0 l _ (SELF l Fl) PL Hl) as VL.
  replace (2 * 0 / norm (vals (l3 n)) + 15 / 2 * u + 2 * tiny) with (15 / 2 * u + 2 * tiny) in VN by (field; lra). replace (2 * 0 / norm (vals (l3 l)) + 15 / 2 * u + 2 * tiny) with (15 / 2 * u + 2 * tiny) in VL by (field; lra).
  pose proof (light_near L _ _ _ _ _ _ VN VL (unit_norm _ (vals_len n) PN) (unit_norm _ (vals_len l) PL) ltac:(lra) ltac:(lra) c DE) as K. cbv zeta in K. rewrite unit_ip in K by (reflexivity || assumption). change (cosine (vals (l3 n)) (vals (l3 l))) with k in K.
  destruct K as (F & R & K & Z & P). split; [exact F|]. split; [exact R|]. unfold w. change ulp_half with u. split; [lra|]. split; intros H; [apply Z; lra|apply P; lra].
Qed.

Lemma qrot_ip Q A B : unit_quat Q -> length A = 3%nat -> length B = 3%nat -> ip (qrot Q A) (qrot Q B) = ip A B.
Proof.
  intros UQ LA LB. assert (P : forall X Y, length X = 3%nat -> length Y = 3%nat -> ip X Y = (norm X * norm X + norm Y * norm Y - norm (vsub X Y) * norm (vsub X Y)) / 2).
  { clear. intros X Y LX LY. rewrite !norm_sq. list3' X. list3' Y. unfold ip, vsub. cbn. field. }
  rewrite (P _ _ (qrot_len Q A) (qrot_len Q B)), (P A B LA LB), qrot_iso, !qrot_norm by assumption. unfold unit_quat in UQ. rewrite UQ. field.
Qed.
(** Lighting does not depend on the frame: turning normal and light by the same normalized quaternion changes the result by at most 342 half-ulps. *)
Lemma C109_turned_pf : forall (L : Libm) (q : quat f32) (n l : vec3 f32), all_finite (lq q) -> Rabs (norm (vals (lq q)) - 1) <= 9 * ulp_half ->
  lit_range (/ IZR (2 ^ 40)) (IZR (2 ^ 40)) n -> lit_range (/ IZR (2 ^ 40)) (IZR (2 ^ 40)) l ->
  let c := diffuse L (quat_mul_vec (F32 L) q n) (quat_mul_vec (F32 L) q l) in let k := cosine (vals (l3 n)) (vals (l3 l)) in
  finite c /\ 0 <= b2r c <= 1 /\ Rabs (b2r c - Rmax 0 k) <= 323 * ulp_half /\ Rabs (b2r c - b2r (diffuse L n l)) <= 342 * ulp_half.
Proof.
  intros L q n l Fq Nq Hn Hl c k. pose proof (diffuse_eq L (quat_mul_vec (F32 L) q n) (quat_mul_vec (F32 L) q l) : c = _) as DE. clearbody c. pose proof u_val as U. pose proof tiny_lt as T. change ulp_half with u in *.
  assert (UQ : unit_quat (unit_dir q)) by (apply unit_dir_unit; apply Rabs_le_inv in Nq; lra).
  assert (PI : 0 < / IZR (2 ^ 40)) by (apply Rinv_0_lt_compat; now apply IZR_lt).
  assert (B1 : / IZR (2 ^ 48) <= / 2 * / IZR (2 ^ 40)). { rewrite <- Rinv_mult. apply Rinv_le_contravar; [|rewrite <- mult_IZR; apply IZR_le; discriminate]. apply Rmult_lt_0_compat; [lra|now apply IZR_lt]. }
  assert (B2 : 2 * IZR (2 ^ 40) <= IZR (2 ^ 62)) by (rewrite <- mult_IZR; apply IZR_le; discriminate).
  assert (B3 : / IZR (2 ^ 102) <= / 100 * u * / IZR (2 ^ 40)).
  { apply Rle_trans with (/ IZR (2 ^ 102)); [lra|]. replace (2 ^ 102)%Z with (2 ^ 62 * 2 ^ 40)%Z by reflexivity. rewrite mult_IZR, Rinv_mult. apply Rmult_le_compat_r; [lra|]. change u with ulp_half. rewrite uval, <- Rinv_mult. apply Rinv_le_contravar; [lra|]. rewrite <- mult_IZR. apply IZR_le. discriminate. }
  assert (G : forall v, lit_range (/ IZR (2 ^ 40)) (IZR (2 ^ 40)) v -> 0 < norm (qrot (unit_dir q) (vals (l3 v))) /\ vnear (1598 / 10 * u) (normalize3 (F32 L) (quat_mul_vec (F32 L) q v)) (unit_of (qrot (unit_dir q) (vals (l3 v))))).
  { intros v (Fv & Hv). destruct (rot_near L q v Fq Nq Fv ltac:(lra)) as [FR NR]. change (q4 (unit_of (vals (lq q)))) with (unit_dir q) in NR.
    assert (EN : norm (qrot (unit_dir q) (vals (l3 v))) = norm (vals (l3 v))). { rewrite qrot_norm by reflexivity. unfold unit_quat in UQ. rewrite UQ. ring. }
    set (N := norm (vals (l3 v))) in *. set (X := qrot (unit_dir q) (vals (l3 v))) in *. assert (LX : length X = 3%nat) by apply qrot_len. clearbody X. rewrite EN. split; [lra|].
    set (r := quat_mul_vec (F32 L) q v : vec3 f32) in *. clearbody r.
    assert (VR : vnear (761/10 * u * N) r X). { split; [exact LX|]. split; [exact FR|]. eapply Rle_trans; [exact NR|]. assert (/ 100 * u * / IZR (2 ^ 40) <= / 100 * u * N) by (apply Rmult_le_compat_l; lra). lra. }
    destruct (near_norm _ _ _ VR) as (N1 & N2 & _). rewrite EN in N1, N2. assert (D : 761/10 * u * N <= / 2 * N) by (apply Rmult_le_compat_r; lra).
    pose proof (normalize_near L _ r X VR ltac:(lra) ltac:(lra)) as V. rewrite EN in V. replace (2 * (761 / 10 * u * N) / N + 15 / 2 * u + 2 * tiny) with (1522 / 10 * u + 15 / 2 * u + 2 * tiny) in V by (field; lra).
    destruct V as (A & B & C). split; [exact A|]. split; [exact B|]. lra. }
  destruct (G n Hn) as [P1 V1]. destruct (G l Hl) as [P2 V2].
  pose proof (light_near L _ _ _ _ _ _ V1 V2 (unit_norm _ (qrot_len _ _) P1) (unit_norm _ (qrot_len _ _) P2) ltac:(lra) ltac:(lra) c DE) as K. cbv zeta in K.
  rewrite unit_ip in K by (apply qrot_len || assumption). assert (EK : cosine (qrot (unit_dir q) (vals (l3 n))) (qrot (unit_dir q) (vals (l3 l))) = k).
  { unfold k, cosine. rewrite qrot_ip, !qrot_norm by (exact UQ || reflexivity). unfold unit_quat in UQ. rewrite UQ, !Rmult_1_l. reflexivity. }
  rewrite EK in K. destruct K as (F & R & K & _).
  split; [exact F|]. split; [exact R|]. split; [lra|].
  assert (W : forall v, lit_range (/ IZR (2 ^ 40)) (IZR (2 ^ 40)) v -> lit_range (/ IZR (2 ^ 48)) (IZR (2 ^ 62)) v).
  { intros v (Fv & Hv). split; [exact Fv|]. pose proof (IZR_lt 0 (2 ^ 40) eq_refl). lra. }
  destruct (C109_diffuse_pf L n l (W n Hn) (W l Hl)) as (_ & _ & K' & _). cbv zeta in K'. fold k in K'. change ulp_half with u in K'. apply Rabs_le_inv in K. apply Rabs_le_inv in K'. apply Rabs_le. lra.
Qed.
(*PROPS
(** the normal (0, 0, 2) lit from (3, 0, 4): the cosine is 4/5 *)
Example C109_case : let n := V3 (f32_ofZ 0) (f32_ofZ 0) (f32_ofZ 2) in let l := V3 (f32_ofZ 3) (f32_ofZ 0) (f32_ofZ 4) in
  lit_range (/ IZR (2 ^ 40)) (IZR (2 ^ 40)) n /\ lit_range (/ IZR (2 ^ 40)) (IZR (2 ^ 40)) l /\ cosine (vals (l3 n)) (vals (l3 l)) = 4 / 5.
Proof.
  cbv zeta. assert (H0 : b2r (f32_ofZ 0) = 0) by reflexivity. assert (H2 := ofZ_exact 2 eq_refl). assert (H3 := ofZ_exact 3 eq_refl). assert (H4 := ofZ_exact 4 eq_refl).
  assert (V : forall a b c : f32, vals (l3 (V3 a b c)) = [b2r a; b2r b; b2r c]) by reflexivity.
  assert (FF : forall a b c : f32, finite a -> finite b -> finite c -> all_finite (l3 (V3 a b c))) by (intros; repeat (apply Forall_cons; [assumption|]); apply Forall_nil).
  assert (N2 : norm [0; 0; 2] = 2) by (unfold norm, ip; cbn; transitivity (sqrt (2 * 2)); [f_equal; lra|apply sqrt_square; lra]).
  assert (N5 : norm [3; 0; 4] = 5) by (unfold norm, ip; cbn; transitivity (sqrt (5 * 5)); [f_equal; lra|apply sqrt_square; lra]).
  assert (B : 5 <= IZR (2 ^ 40)) by now apply (IZR_le 5). assert (B' : / IZR (2 ^ 40) <= 1) by (rewrite <- Rinv_1; apply Rinv_le_contravar; lra).
  unfold lit_range, cosine. rewrite !V, H0, H2, H3, H4, N2, N5. split; [split; [now apply FF|lra]|]. split; [split; [now apply FF|lra]|]. unfold ip. cbn. field.
Qed.
PROPS*)
