(** * Proofs: points placed by a rotation and a translation in binary32 *)
From Coq Require Import ZArith Bool Reals List Lra Lia.
From Flocq Require Import Core IEEE754.BinarySingleNaN.
From Verif Require Import Scalar IEEE32 RealInst Types Outcome Spec SpecR SpecMat SpecGeo SpecF32 SpecErr SpecAcc SpecLook SpecCamera SpecPlace FloatBasics FloatOps
  ModelVec ModelMat ModelQuat ModelQuaternion ModelTransform ErrLib LenLib RealTac VecErrLib.
Import ListNotations.
Local Open Scope R_scope.
(*HEADER END*)
From Coq Require Import Psatz.
From Verif Require Import FloatAlg OvfLib LenLib RelLib DomLib NumLib SpecDrift PfErr PfOvf PfLen PfQuatAcc PfOctAcc VecErrLib QuatErrLib PfDepth PfLook PfCamera PfQuat PfRot PfDrift PfInvQ PfRefract MatTac.

(** ** The matrix of a quaternion *)
Lemma unit_dir_unit q : 0 < norm (vals (lq q)) -> unit_quat (unit_dir q).
Proof. intros P. unfold unit_quat. change (lq (unit_dir q)) with (unit_of (vals (lq q))). now apply unit_norm'. Qed.
Lemma cast_entries (L : Libm) (q : quat f32) h : all_finite (lq q) -> Rabs (ip (vals (lq q)) (vals (lq q)) - 1) <= h -> h <= / 4000 ->
  let d := unit_dir q in Forall2 (close (2 * h + 121/10 * u)) (lm3 (mat3_cast (F32 L) q)) (rotation_entries (-1) (qx d) (qy d) (qz d) (qw d)).
Proof.
  intros F Hh Bh d. pose proof u_val as U. pose proof (Rabs_pos (ip (vals (lq q)) (vals (lq q)) - 1)) as P0.
  pose proof (C65_mat3_cast_pf L q) as NM. assert (BQ : bounded_by 2 (lq q)).
  { destruct q as [x y z w]. cbn in Hh. apply Rabs_le_inv in Hh. unfold bounded_by. cbv [lq qx qy qz qw].
    repeat (apply Forall_cons; [apply Rabs_le; nra|]). apply Forall_nil. }
  assert (FM : all_finite (lm3 (mat3_cast (F32 L) q))).
  { destruct (C71_quaternions_pf L) as (_ & _ & A). apply (A q 2 ltac:(lra) F BQ). apply Rlt_le_trans with (IZR (2 ^ 5)); [cbn; lra|apply IZR_le]. now apply Z.pow_le_mono_r. }
  specialize (NM FM). destruct q as [fx fy fz fw]. cbn [qx qy qz qw] in NM. set (M := mat3_cast (F32 L) (Quat fx fy fz fw)) in *. clearbody M.
  set (x := b2r fx) in *. set (y := b2r fy) in *. set (z := b2r fz) in *. set (w := b2r fw) in *.
  set (N := norm (vals (lq (Quat fx fy fz fw)))) in *. assert (SN0 : N * N = x * x + (y * y + (z * z + (w * w + 0)))) by (unfold N; rewrite norm_sq; reflexivity).
  change (ip (vals (lq (Quat fx fy fz fw))) (vals (lq (Quat fx fy fz fw)))) with (x * x + (y * y + (z * z + (w * w + 0)))) in Hh.
  set (S := x * x + y * y + z * z + w * w). replace (x * x + (y * y + (z * z + (w * w + 0))) - 1) with (S - 1) in Hh by (unfold S; ring). apply Rabs_le_inv in Hh.
  assert (SN : N * N = S) by (rewrite SN0; unfold S; ring). assert (PN : 0 < N) by (pose proof (norm_nn (vals (lq (Quat fx fy fz fw)))) as P; fold N in P; nra).
  set (i := / N). assert (IN : i * N = 1) by (unfold i; field; lra).
  assert (Ed : d = Quat (i * x) (i * y) (i * z) (i * w)) by reflexivity. clearbody d. subst d. cbn [qx qy qz qw].
  assert (IS : (i * i - 1) * S = 1 - S) by (rewrite <- SN; replace ((i * i - 1) * (N * N)) with ((i * N) * (i * N) - N * N) by ring; rewrite IN; ring).
  assert (KS : - h <= (i * i - 1) * S <= h) by lra.
  assert (PS : 0 <= S) by lra. clear SN0. clearbody i N.
  assert (CP : forall T, - S <= T <= S -> - h <= (i * i - 1) * T <= h) by (intros T HT; now apply (scaled_part _ S)).
  destruct M as [[a00 a01 a02] [a10 a11 a12] [a20 a21 a22]]. unfold rotation_entries in NM. cbn [lm3 l3 concat app m3c0 m3c1 m3c2 x3 y3 z3 nears] in NM, FM.
  destruct NM as (A00 & A01 & A02 & A10 & A11 & A12 & A20 & A21 & A22 & _).
  unfold all_finite in FM. repeat match type of FM with Forall _ (_ :: _) => let K := fresh "F0" in apply Forall_cons_iff in FM as [K FM] end.
  pose proof (Rle_0_sqr x) as Qx. pose proof (Rle_0_sqr y) as Qy. pose proof (Rle_0_sqr z) as Qz. pose proof (Rle_0_sqr w) as Qw. unfold Rsqr in *.
  assert (AB : forall a b, Rabs a * Rabs b <= (a * a + b * b) / 2 /\ 0 <= Rabs a * Rabs b).
  { intros a b. pose proof (Rabs_pos a). pose proof (Rabs_pos b). assert (a * a = Rabs a * Rabs a) by (rewrite <- Rabs_mult, Rabs_pos_eq; [reflexivity|apply Rle_0_sqr]). assert (b * b = Rabs b * Rabs b) by (rewrite <- Rabs_mult, Rabs_pos_eq; [reflexivity|apply Rle_0_sqr]). pose proof (Rle_0_sqr (Rabs a - Rabs b)). unfold Rsqr in *. split; [lra|now apply Rmult_le_pos]. }
  assert (DG : forall a b, 0 <= a * a -> 0 <= b * b -> a * a + b * b <= S -> 0 <= 1 + 1 * (2 * (Rabs a * Rabs a + Rabs b * Rabs b)) <= 301/100).
  { intros a b Ha Hb Hab. replace (Rabs a * Rabs a) with (a * a) by (rewrite <- Rabs_mult, Rabs_pos_eq; lra). replace (Rabs b * Rabs b) with (b * b) by (rewrite <- Rabs_mult, Rabs_pos_eq; lra). lra. }
  assert (SS : S = x * x + y * y + z * z + w * w) by reflexivity. clearbody S.
  pose proof (AB x y). pose proof (AB w z). pose proof (AB x z). pose proof (AB w y). pose proof (AB y z). pose proof (AB w x).
  apply near_close in A00; [|assumption|apply DG; lra]. apply near_close in A11; [|assumption|apply DG; lra]. apply near_close in A22; [|assumption|apply DG; lra].
  apply near_close in A01; [|assumption|lra]. apply near_close in A02; [|assumption|lra]. apply near_close in A10; [|assumption|lra].
  apply near_close in A12; [|assumption|lra]. apply near_close in A20; [|assumption|lra]. apply near_close in A21; [|assumption|lra].
  assert (OT : forall a b, - (a * a + b * b) <= 2 * (a * b) <= a * a + b * b). { intros a b. pose proof (Rle_0_sqr (a - b)). pose proof (Rle_0_sqr (a + b)). unfold Rsqr in *. lra. }
  pose proof (OT x y). pose proof (OT w z). pose proof (OT x z). pose proof (OT w y). pose proof (OT y z). pose proof (OT w x).
  assert (W : forall (c : f32) r T r', close (121/10 * u) c r -> - S <= T <= S -> r' = r + 2 * ((i * i - 1) * T) -> close (2 * h + 121/10 * u) c r').
  { intros c r T r' [Fc Kc] HT ->. split; [exact Fc|]. pose proof (CP T HT). lra. }
  unfold rotation_entries. cbn [lm3 l3 concat app m3c0 m3c1 m3c2 x3 y3 z3 qx qy qz qw].
  apply Forall2_cons; [apply (W _ _ (- (y * y + z * z)) _ A00); [lra|ring]|]. apply Forall2_cons; [apply (W _ _ (x * y + w * z) _ A01); [lra|ring]|].
  apply Forall2_cons; [apply (W _ _ (x * z - w * y) _ A02); [lra|ring]|]. apply Forall2_cons; [apply (W _ _ (x * y - w * z) _ A10); [lra|ring]|].
  apply Forall2_cons; [apply (W _ _ (- (x * x + z * z)) _ A11); [lra|ring]|]. apply Forall2_cons; [apply (W _ _ (y * z + w * x) _ A12); [lra|ring]|].
  apply Forall2_cons; [apply (W _ _ (x * z + w * y) _ A20); [lra|ring]|]. apply Forall2_cons; [apply (W _ _ (y * z - w * x) _ A21); [lra|ring]|].
  apply Forall2_cons; [apply (W _ _ (- (x * x + y * y)) _ A22); [lra|ring]|]. apply Forall2_nil.
Qed.
Lemma cast_entries9 (L : Libm) (q : quat f32) : all_finite (lq q) -> Rabs (norm (vals (lq q)) - 1) <= 9 * u ->
  let d := unit_dir q in Forall2 (close (50 * u)) (lm3 (mat3_cast (F32 L) q)) (rotation_entries (-1) (qx d) (qy d) (qz d) (qw d)).
Proof.
  intros F N d. pose proof u_val as U. assert (H : Rabs (ip (vals (lq q)) (vals (lq q)) - 1) <= 181/10 * u).
  { rewrite <- norm_sq. apply Rabs_le_inv in N. apply Rabs_le. set (n := norm (vals (lq q))) in *. clearbody n. nra. }
  pose proof (cast_entries L q _ F H ltac:(lra)) as K. fold d in K. clearbody d. induction K as [|c r l l' [Fc Kc] _ IH]; constructor; [split; [exact Fc|]; lra|exact IH].
Qed.
(** the rows *)
Definition rows (Q : quat R) : list (list R) :=
  let x := qx Q in let y := qy Q in let z := qz Q in let w := qw Q in
  [[1 + -1 * (2 * (y * y + z * z)); 2 * (x * y + -1 * (w * z)); 2 * (x * z + w * y)];
   [2 * (x * y + w * z); 1 + -1 * (2 * (x * x + z * z)); 2 * (y * z + -1 * (w * x))];
   [2 * (x * z + -1 * (w * y)); 2 * (y * z + w * x); 1 + -1 * (2 * (x * x + y * y))]].
Lemma rows_rot Q V : unit_quat Q -> length V = 3%nat -> map (fun X => ip X V) (rows Q) = qrot Q V.
Proof.
  intros UQ LV. list3 V. pose proof (act_is_rot Q (V3 a a0 a1) UQ) as E. destruct C56_mat_cast_pf as (_ & M & _). rewrite <- M in E.
  change (l3 (V3 a a0 a1)) with [a; a0; a1] in E. rewrite <- E. destruct Q as [x y z w]. unfold rows, ip. cbn [map zip fold_right qx qy qz qw]. clear. ms. parts; ring.
Qed.
Lemma rows_unit Q X : unit_quat Q -> In X (rows Q) -> length X = 3%nat /\ norm X <= 1.
Proof.
  intros UQ HX. apply norm1_ip in UQ. destruct Q as [x y z w]. unfold ip, lq in UQ. cbn in UQ. assert (U1 : w * w = 1 - x * x - y * y - z * z) by lra. clear UQ. unfold rows in HX. cbn [qx qy qz qw] in HX.
  destruct HX as [<-|[<-|[<-|[]]]]; (split; [reflexivity|]); apply sq_le_norm; try lra; unfold ip; cbn; right.
  - transitivity (1 + 4 * (z * z + y * y) * (w * w + (x * x + y * y + z * z) - 1)); [ring|]. rewrite U1. ring.
  - transitivity (1 + 4 * (z * z + x * x) * (w * w + (x * x + y * y + z * z) - 1)); [ring|]. rewrite U1. ring.
  - transitivity (1 + 4 * (y * y + x * x) * (w * w + (x * x + y * y + z * z) - 1)); [ring|]. rewrite U1. ring.
Qed.
(** ** Exact products with 0 and 1 *)
Definition val (c : f32) (r : R) : Prop := finite c /\ b2r c = r.
Lemma val0 : val (f32_lit 0 0) 0. Proof. split; reflexivity. Qed.
Lemma val1 : val (f32_lit 1 0) 1. Proof. split; [exact fin_lit1|exact b2r_lit1]. Qed.
Lemma val_self c : finite c -> val c (b2r c). Proof. now split. Qed.
Lemma val_mul0 a b c : val a 0 -> val b c -> val (Bmult mode_NE a b) 0.
Proof. intros [Fa Ea] [Fb Eb]. exact (zero_mult a b Fa Ea Fb). Qed.
Lemma val_mul1 b c : val b c -> val (Bmult mode_NE (f32_lit 1 0) b) c.
Proof. intros [Fb Eb]. assert (E : Bmult mode_NE (f32_lit 1 0) b = Bmult mode_NE b (f32_lit 1 0)) by exact (bmul_comm _ _). rewrite E. destruct (mult_one b Fb) as [F K]. split; [exact F|congruence]. Qed.
Lemma val_1mul b c : val b c -> val (Bmult mode_NE b (f32_lit 1 0)) c.
Proof. intros [Fb Eb]. destruct (mult_one b Fb) as [F K]. split; [exact F|congruence]. Qed.
Lemma val_0mul a b c : val a 0 -> val b c -> val (Bmult mode_NE b a) 0.
Proof. intros Ha Hb. assert (E : Bmult mode_NE b a = Bmult mode_NE a b) by exact (bmul_comm _ _). rewrite E. now apply (val_mul0 a b c). Qed.
Lemma val_add0 a b c : val a 0 -> val b c -> val (Bplus mode_NE a b) c.
Proof. intros [Fa Ea] [Fb Eb]. destruct (zero_plus a b Fa Ea Fb) as [F K]. split; [exact F|congruence]. Qed.
Lemma val_0add a b c : val a 0 -> val b c -> val (Bplus mode_NE b a) c.
Proof. intros [Fa Ea] [Fb Eb]. destruct (PfDepth.plus_zero a b Fa Ea Fb) as [F K]. split; [exact F|congruence]. Qed.

Lemma rows_len Q : exists X Y W, rows Q = [X; Y; W] /\ length X = 3%nat /\ length Y = 3%nat /\ length W = 3%nat.
Proof. unfold rows. do 3 eexists. repeat split. Qed.
Ltac nv := match goal with
  | |- val (f32_lit 0 0) _ => exact val0
  | |- val (f32_lit 1 0) _ => exact val1
  | |- val (Bmult _ (f32_lit 0 0) _) _ => eapply val_mul0; [exact val0|nv]
  | |- val (Bmult _ _ (f32_lit 0 0)) _ => eapply val_0mul; [exact val0|nv]
  | |- val (Bmult _ (f32_lit 1 0) _) _ => apply val_mul1; nv
  | |- val (Bmult _ _ (f32_lit 1 0)) _ => apply val_1mul; nv
  | |- val (Bplus _ _ _) _ => eapply val_add0; [solve [nv]|nv]
  | |- val (Bplus _ _ _) _ => eapply val_0add; [solve [nv]|nv]
  | |- _ => eassumption end.
Definition padded (l t : list R) : list R := [nth 0 l 0; nth 1 l 0; nth 2 l 0; 0; nth 3 l 0; nth 4 l 0; nth 5 l 0; 0; nth 6 l 0; nth 7 l 0; nth 8 l 0; 0; nth 0 t 0; nth 1 t 0; nth 2 t 0; 1].
Ltac fins H := unfold all_finite in H; repeat match type of H with Forall _ (_ :: _) => let K := fresh "V" in apply Forall_cons_iff in H as [K H]; apply val_self in K end; clear H.
Lemma pose_vals L p q : all_finite (l3 p) -> all_finite (lm3 (mat3_cast (F32 L) q)) ->
  Forall2 val (lm4 (pose L p q)) (padded (vals (lm3 (mat3_cast (F32 L) q))) (vals (l3 p))).
Proof.
  unfold pose, mat4_cast. generalize (mat3_cast (F32 L) q). intros [[a00 a01 a02] [a10 a11 a12] [a20 a21 a22]] Fp Fm. destruct p as [px py pz].
  cbv [lm3 l3 concat app m3c0 m3c1 m3c2 x3 y3 z3] in Fp, Fm. fins Fp. fins Fm.
  cbv [vals padded lm3 lm4 l3 l4 map nth concat app mat4_mul translate mat4_f mat4_of_mat3 vec4_v3f col3 col4 el3 el4 m3c0 m3c1 m3c2 m4c0 m4c1 m4c2 m4c3 x3 y3 z3 x4 y4 z4 w4 vec4_add vec4_mul_sc IMPL_V4_V4_BINOP IMPL_V4_SC_BINOP sadd smul slit F32].
  repeat (apply Forall2_cons; [nv|]). apply Forall2_nil.
Qed.
Lemma cast4_vals L q : all_finite (lm3 (mat3_cast (F32 L) q)) -> Forall2 val (lm4 (mat4_cast (F32 L) q)) (padded (vals (lm3 (mat3_cast (F32 L) q))) [0; 0; 0]).
Proof.
  unfold mat4_cast. generalize (mat3_cast (F32 L) q). intros [[a00 a01 a02] [a10 a11 a12] [a20 a21 a22]] Fm.
  cbn [lm3 l3 concat app m3c0 m3c1 m3c2 x3 y3 z3] in Fm. fins Fm.
  cbv [vals padded lm3 lm4 l3 l4 map nth concat app mat4_of_mat3 vec4_v3f col3 m3c0 m3c1 m3c2 m4c0 m4c1 m4c2 m4c3 x3 y3 z3 x4 y4 z4 w4 sadd smul slit F32].
  repeat (apply Forall2_cons; [nv|]). apply Forall2_nil.
Qed.
(** ** Points *)
Lemma place_near L (m : mat4 f32) (v : vec3 f32) q T : all_finite (lq q) -> Rabs (norm (vals (lq q)) - 1) <= 9 * u -> all_finite (l3 v) -> norm (vals (l3 v)) <= IZR (2 ^ 61) ->
  length T = 3%nat -> norm T <= IZR (2 ^ 61) -> Forall2 val (lm4 m) (padded (vals (lm3 (mat3_cast (F32 L) q))) T) ->
  let o := eye_space L m v in
  all_close (93 * u * (norm (vals (l3 v)) + norm T) + 8 * tiny) [x4 o; y4 o; z4 o] (vadd (qrot (unit_dir q) (vals (l3 v))) T) /\ finite (w4 o) /\ b2r (w4 o) = 1.
Proof.
  intros Fq Nq Fv Nv LT NT HM o. pose proof u_val as U. pose proof tiny_u as [T0 T1].
  assert (PN : 0 < norm (vals (lq q))) by (apply Rabs_le_inv in Nq; lra). pose proof (unit_dir_unit q PN) as UQ. pose proof (cast_entries9 L q Fq Nq) as K. cbv zeta in K.
  set (Q := unit_dir q) in *. clearbody Q. assert (UC : unit_quat (qconj Q)) by (unfold unit_quat; rewrite qconj_norm; exact UQ).
  set (E := qrot (qconj Q) (vscale (-1) T)). assert (LN : length (vscale (-1) T) = 3%nat) by now rewrite vscale_len.
  assert (NE : norm E = norm T). { unfold E. rewrite qrot_norm by exact LN. unfold unit_quat in UC. rewrite UC, norm_scale3 by exact LT. rewrite Rabs_left by lra. ring. }
  assert (QE : qrot Q E = vscale (-1) T). { unfold E. pose proof (qrot_back (qconj Q) (vscale (-1) T) UC LN) as B. replace (qconj (qconj Q)) with Q in B by (destruct Q; unfold qconj, mkq, qvec; cbn; rewrite !Ropp_involutive; reflexivity). exact B. }
  assert (LE : length E = 3%nat) by reflexivity. pose proof (rows_rot Q E UQ LE) as RE. rewrite QE in RE.
  pose proof (rows_rot Q (vsub (vals (l3 v)) E) UQ ltac:(apply vsub_len; [reflexivity|exact LE])) as RV.
  assert (LIN : qrot Q (vsub (vals (l3 v)) E) = vadd (qrot Q (vals (l3 v))) T).
  { assert (D : qrot Q (vsub (vals (l3 v)) E) = vsub (qrot Q (vals (l3 v))) (qrot Q E)).
    { clear. generalize (vals (l3 v)) (eq_refl : length (vals (l3 v)) = 3%nat) E (eq_refl : length E = 3%nat). clear. intros A LA B LB. destruct Q as [a b c d]. list3' A. list3' B. unfold vsub. cbn [zip]. rewrite !qrot_eq, !ham_eq. unfold qvec. cbn [zip qx qy qz qw]. repeat (apply f_equal2; [ring|]). reflexivity. }
    rewrite D, QE. generalize (qrot_len Q (vals (l3 v))). generalize (qrot Q (vals (l3 v))). intros A LA. clear - LA LT. list3' A. list3' T. unfold vsub, vadd, vscale. cbn. repeat (apply f_equal2; [ring|]). reflexivity. }
  rewrite LIN in RV. pose proof (rows_unit Q) as RU.
  assert (RS0 : exists X Y W, rows Q = [X; Y; W] /\ Forall2 (close (50 * u)) (lm3 (mat3_cast (F32 L) q)) (build_mat 3 (fun i j => nth j (nth i [X; Y; W] []) 0))).
  { do 3 eexists. split; [reflexivity|]. exact K. }
  destruct RS0 as (X & Y & W & ER & KM). rewrite ER in *. clear K ER.
  destruct (RU X UQ (or_introl eq_refl)) as [LX NX]. destruct (RU Y UQ (or_intror (or_introl eq_refl))) as [LY NY]. destruct (RU W UQ (or_intror (or_intror (or_introl eq_refl)))) as [LW NW]. clear RU.
  cbn [map] in RE. clearbody E. list3' T. unfold vscale in RE. cbn [map] in RE. injection RE as E1 E2 E3.
  destruct (eye_near L m v (25/31) X Y W E LX LY LW LE NX NY NW ltac:(rewrite NE; exact NT) ltac:(lra) ltac:(lra) Fv Nv) as (A & B & C).
  - rewrite E1, E2, E3. clear - HM KM U T0 T1 LX LY LW. assert (P0 : 0 <= norm E) by apply norm_nn. change ulp_half with u. set (t := (25 / (25 / 31) + 24) * u * norm E + 3 * tiny). assert (Pt : 0 <= t). { unfold t. assert (0 <= u * norm E) by (apply Rmult_le_pos; lra). replace ((25 / (25 / 31) + 24) * u * norm E) with (55 * (u * norm E)) by field. lra. }
    replace ((25 / (25 / 31) + 20) * u) with (51 * u) by field. clearbody t.
    generalize dependent (mat3_cast (F32 L) q). intros N HM KM. list3' X. list3' Y. list3' W.
    unfold close_each, view_tolerance, affine. destruct N as [[n00 n01 n02] [n10 n11 n12] [n20 n21 n22]]. destruct m as [[b00 b01 b02 b03] [b10 b11 b12 b13] [b20 b21 b22 b23] [b30 b31 b32 b33]].
    cbv [vals padded lm3 lm4 l3 l4 map nth concat app m3c0 m3c1 m3c2 m4c0 m4c1 m4c2 m4c3 x3 y3 z3 x4 y4 z4 w4 build_mat List.seq ent Nat.add Nat.mul combine] in HM, KM |- *.
    repeat match goal with H : Forall2 _ (_ :: _) (_ :: _) |- _ => let h := fresh "H" in let t := fresh "T" in inversion H as [|? ? ? ? h t]; subst; clear H end.
    repeat match goal with H : val _ _ |- _ => destruct H end. repeat match goal with H : close _ _ _ |- _ => destruct H end.
    repeat (apply Forall2_cons; [cbn [fst snd]; split; [assumption|apply Rabs_le; lra]|]). apply Forall2_nil.
  - fold o in A, B, C. rewrite RV in A. split; [|split; assumption]. cbv zeta in A. change ulp_half with u in A. rewrite NE in A.
    assert (PP : 0 <= u * (norm (vals (l3 v)) + norm [a; a0; a1])) by (apply Rmult_le_pos; [lra|]; pose proof (norm_nn (vals (l3 v))); pose proof (norm_nn [a; a0; a1]); lra).
    eapply all_close_weak; [|exact A]. set (s := norm (vals (l3 v)) + norm [a; a0; a1]) in *. clearbody s.
    replace ((44 / (25 / 31) + 38) * u * s) with ((44 * 31 / 25 + 38) * (u * s)) by field. replace (93 * u * s) with (93 * (u * s)) by ring. lra.
Qed.

(** The point matrix-times-vector yields for translate(mat4(1), p) * mat4_cast(q) with q of unit length up to 9 half-ulps is, coordinate by coordinate,
    the point turned by the rotation of q's direction and moved by p, and its last component is exactly 1. *)
Lemma C106_pose_pf : forall (L : Libm) (p : vec3 f32) (q : quat f32) (v : vec3 f32),
  all_finite (lq q) -> Rabs (norm (vals (lq q)) - 1) <= 9 * ulp_half -> all_finite (l3 p) -> all_finite (l3 v) ->
  norm (vals (l3 p)) <= IZR (2 ^ 61) -> norm (vals (l3 v)) <= IZR (2 ^ 61) ->
  let o := eye_space L (pose L p q) v in
  all_close (placing_error (vals (l3 p)) (vals (l3 v))) (xyz o) (vadd (qrot (unit_dir q) (vals (l3 v))) (vals (l3 p))) /\ finite (w4 o) /\ b2r (w4 o) = 1.
Proof.
  intros L p q v Fq Nq Fp Fv Np Nv o. refine (place_near L _ v q (vals (l3 p)) Fq Nq Fv Nv eq_refl Np (pose_vals L p q Fp _)).
  pose proof (cast_entries9 L q Fq Nq) as K. cbv zeta in K. revert K. generalize (lm3 (mat3_cast (F32 L) q)). intros l K. induction K as [|c r l l' [Fc _] _ IH]; constructor; assumption.
Qed.
Lemma norm000 : norm [0; 0; 0] = 0.
Proof. unfold norm, ip. cbn. replace (0 * 0 + (0 * 0 + (0 * 0 + 0))) with 0 by ring. apply sqrt_0. Qed.
(** The same for mat4_cast(q) alone, and the point it yields agrees with the quaternion-vector product to the sum of the two errors. *)
Lemma C106_cast_pf : forall (L : Libm) (q : quat f32) (v : vec3 f32),
  all_finite (lq q) -> Rabs (norm (vals (lq q)) - 1) <= 9 * ulp_half -> all_finite (l3 v) -> norm (vals (l3 v)) <= IZR (2 ^ 61) ->
  let o := eye_space L (mat4_cast (F32 L) q) v in
  all_close (93 * ulp_half * norm (vals (l3 v)) + 8 * tiny) (xyz o) (qrot (unit_dir q) (vals (l3 v))) /\ finite (w4 o) /\ b2r (w4 o) = 1 /\
  (norm (vals (l3 v)) <= IZR (2 ^ 40) ->
   all_close (169 * ulp_half * norm (vals (l3 v)) + / IZR (2 ^ 101)) (xyz o) (vals (l3 (quat_mul_vec (F32 L) q v)))).
Proof.
  intros L q v Fq Nq Fv Nv o. pose proof u_val as U. pose proof tiny_u as [T0 T1]. change ulp_half with u in *.
  assert (FM : all_finite (lm3 (mat3_cast (F32 L) q))).
  { pose proof (cast_entries9 L q Fq Nq) as K. cbv zeta in K. revert K. generalize (lm3 (mat3_cast (F32 L) q)). intros l K. induction K as [|c r l l' [Fc _] _ IH]; constructor; assumption. }
  destruct (place_near L (mat4_cast (F32 L) q) v q [0; 0; 0] Fq Nq Fv Nv eq_refl ltac:(rewrite norm000; apply IZR_le; now apply Z.pow_nonneg) (cast4_vals L q FM)) as (A & B & C).
  fold o in A, B, C. rewrite norm000, Rplus_0_r in A. unfold xyz.
  assert (E : forall l, length l = 3%nat -> vadd l [0; 0; 0] = l). { intros l Ll. list3' l. unfold vadd. cbn. now rewrite !Rplus_0_r. }
  rewrite E in A by apply qrot_len. split; [exact A|]. split; [exact B|]. split; [exact C|]. intros N40.
  destruct (rot_near L q v Fq Nq Fv N40) as [FR NR]. change (q4 (unit_of (vals (lq q)))) with (unit_dir q) in NR. set (X := qrot (unit_dir q) (vals (l3 v))) in *. assert (LX : length X = 3%nat) by apply qrot_len. clearbody X.
  set (r := quat_mul_vec (F32 L) q v : vec3 f32) in *. clearbody r. set (n := norm (vals (l3 v))) in *. clearbody n.
  set (d := 76 * u * n + / IZR (2 ^ 102)) in *. assert (DD : (93 * u * n + 8 * tiny) + d <= 169 * u * n + / IZR (2 ^ 101)).
  { unfold d. assert (T2 : 8 * tiny <= / IZR (2 ^ 102)).
    { unfold tiny. replace (2 ^ 149)%Z with (2 ^ 47 * 2 ^ 102)%Z by reflexivity. rewrite mult_IZR. assert (H : 0 < IZR (2 ^ 102)) by (now apply IZR_lt). set (b := IZR (2 ^ 102)) in *. clearbody b.
      replace (/ (IZR (2 ^ 47) * b)) with (/ IZR (2 ^ 47) * / b) by (field; split; [lra|]; apply Rgt_not_eq; now apply IZR_lt). assert (0 < / b) by now apply Rinv_0_lt_compat. assert (/ IZR (2 ^ 47) <= / 8) by (apply Rinv_le_contravar; [lra|apply IZR_le; discriminate]). nra. }
    replace (/ IZR (2 ^ 101)) with (2 * / IZR (2 ^ 102)) by (replace (2 ^ 102)%Z with (2 * 2 ^ 101)%Z by reflexivity; rewrite mult_IZR; field; apply Rgt_not_eq; now apply IZR_lt). lra. }
  eapply all_close_weak; [exact DD|]. clear DD. destruct r as [r0 r1 r2]. list3' X. clearbody d.
  assert (CN : forall x, In x (vsub (vals (l3 (V3 r0 r1 r2))) [a; a0; a1]) -> Rabs x <= d).
  { intros x Hx. eapply Rle_trans; [|exact NR]. apply comp_norm; [reflexivity|exact Hx]. }
  unfold vsub, vals, l3 in CN. cbn [map zip x3 y3 z3] in CN.
  pose proof (CN _ (or_introl eq_refl)) as C0. pose proof (CN _ (or_intror (or_introl eq_refl))) as C1. pose proof (CN _ (or_intror (or_intror (or_introl eq_refl)))) as C2. clear CN.
  unfold all_close, vals, l3 in *. cbn [map x3 y3 z3] in *. apply Forall2_cons_iff in A as [[F0 A0] A]. apply Forall2_cons_iff in A as [[F1 A1] A]. apply Forall2_cons_iff in A as [[F2 A2] _].
  apply Rabs_le_inv in C0, C1, C2, A0, A1, A2.
  repeat (apply Forall2_cons; [split; [assumption|apply Rabs_le; lra]|]). apply Forall2_nil.
Qed.
(** Placing keeps distances: the distance of two placed points is that of the points themselves up to twice the error of each. *)
Lemma C106_rigid_pf : forall (L : Libm) (p : vec3 f32) (q : quat f32) (v v' : vec3 f32),
  all_finite (lq q) -> Rabs (norm (vals (lq q)) - 1) <= 9 * ulp_half -> all_finite (l3 p) -> all_finite (l3 v) -> all_finite (l3 v') ->
  norm (vals (l3 p)) <= IZR (2 ^ 61) -> norm (vals (l3 v)) <= IZR (2 ^ 61) -> norm (vals (l3 v')) <= IZR (2 ^ 61) ->
  let P := vals (l3 p) in let V := vals (l3 v) in let V' := vals (l3 v') in
  Rabs (norm (vsub (vals (xyz (eye_space L (pose L p q) v))) (vals (xyz (eye_space L (pose L p q) v')))) - norm (vsub V V'))
    <= 2 * placing_error P V + 2 * placing_error P V'.
Proof.
  intros L p q v v' Fq Nq Fp Fv Fv' Np Nv Nv' P V V'. pose proof u_val as U. pose proof tiny_u as [T0 _].
  destruct (C106_pose_pf L p q v Fq Nq Fp Fv Np Nv) as (A & _). destruct (C106_pose_pf L p q v' Fq Nq Fp Fv' Np Nv') as (B & _). cbv zeta in A, B. fold P V in A. fold P V' in B.
  assert (UQ : unit_quat (unit_dir q)) by (apply unit_dir_unit; apply Rabs_le_inv in Nq; change ulp_half with u in Nq; lra).
  assert (PE : forall W, 0 <= placing_error P W). { intros W. unfold placing_error. change ulp_half with u. pose proof (norm_nn W). pose proof (norm_nn P). assert (0 <= u * (norm W + norm P)) by (apply Rmult_le_pos; lra). replace (93 * u * (norm W + norm P)) with (93 * (u * (norm W + norm P))) by ring. lra. }
  apply PfRefract.close_norm in A as [_ A]; [|cbn; lia|apply PE]. apply PfRefract.close_norm in B as [_ B]; [|cbn; lia|apply PE].
  pose proof (qrot_iso (unit_dir q) V V' UQ eq_refl eq_refl) as I. set (e := placing_error P V) in *. set (e' := placing_error P V') in *. clearbody e e'.
  assert (LX : length (qrot (unit_dir q) V) = 3%nat) by apply qrot_len. assert (LX' : length (qrot (unit_dir q) V') = 3%nat) by apply qrot_len.
  set (X := qrot (unit_dir q) V) in *. set (X' := qrot (unit_dir q) V') in *. clearbody X X'. rewrite <- I. assert (LP : length P = 3%nat) by reflexivity. clearbody P.
  assert (LO : length (vals (xyz (eye_space L (pose L p q) v))) = 3%nat) by reflexivity. assert (LO' : length (vals (xyz (eye_space L (pose L p q) v'))) = 3%nat) by reflexivity.
  set (O := vals (xyz (eye_space L (pose L p q) v))) in *. set (O' := vals (xyz (eye_space L (pose L p q) v'))) in *. clearbody O O'.
  change (zip Rminus O (vadd X P)) with (vsub O (vadd X P)) in A. change (zip Rminus O' (vadd X' P)) with (vsub O' (vadd X' P)) in B. clear - LX LX' LP LO LO' A B.
  assert (LA : length (vsub O (vadd X P)) = 3%nat) by (list3' O; list3' X; list3' P; reflexivity). assert (LB : length (vsub O' (vadd X' P)) = 3%nat) by (list3' O'; list3' X'; list3' P; reflexivity).
  assert (LS : length (vsub X X') = 3%nat) by now apply vsub_len. assert (LT : length (vsub O O') = 3%nat) by now apply vsub_len.
  assert (A' : norm (vscale (-1) (vsub O (vadd X P))) <= 2 * e) by (rewrite norm_scale3, Rabs_left by lra; lra).
  assert (B' : norm (vscale (-1) (vsub O' (vadd X' P))) <= 2 * e') by (rewrite norm_scale3, Rabs_left by lra; lra).
  assert (H1 : norm (vsub O O') <= 2 * e + (norm (vsub X X') + 2 * e')).
  { eapply (norm_from_parts (vsub O (vadd X P)) (vadd (vsub X X') (vscale (-1) (vsub O' (vadd X' P))))); [exact LA| | |exact A|].
    - list3' O'. list3' X'. list3' X. list3' P. reflexivity.
    - list3' O. list3' O'. list3' X'. list3' X. list3' P. unfold vsub, vadd, vscale. cbn. repeat (apply f_equal2; [ring|]). reflexivity.
    - eapply (norm_from_parts (vsub X X') (vscale (-1) (vsub O' (vadd X' P)))); [exact LS|now rewrite vscale_len|reflexivity|lra|exact B']. }
  assert (H2 : norm (vsub X X') <= 2 * e + (norm (vsub O O') + 2 * e')).
  { eapply (norm_from_parts (vscale (-1) (vsub O (vadd X P))) (vadd (vsub O O') (vsub O' (vadd X' P)))); [now rewrite vscale_len| | |exact A'|].
    - list3' O. list3' O'. list3' X'. list3' P. reflexivity.
    - list3' O. list3' O'. list3' X'. list3' X. list3' P. unfold vsub, vadd, vscale. cbn. repeat (apply f_equal2; [ring|]). reflexivity.
    - eapply (norm_from_parts (vsub O O') (vsub O' (vadd X' P))); [exact LT|exact LB|reflexivity|lra|exact B]. }
  apply Rabs_le. lra.
Qed.
(*PROPS
(** the quaternion (1/2, 1/2, 1/2, 1/2) permutes the axes; with p = (10, 20, 30) the point (1, 2, 3) goes to (13, 21, 32) *)
Example C106_case : let h := Bdiv mode_NE (f32_ofZ 1) (f32_ofZ 2) in let q := Quat h h h h in
  let p := V3 (f32_ofZ 10) (f32_ofZ 20) (f32_ofZ 30) in let v := V3 (f32_ofZ 1) (f32_ofZ 2) (f32_ofZ 3) in
  all_finite (lq q) /\ Rabs (norm (vals (lq q)) - 1) <= 9 * ulp_half /\ all_finite (l3 p) /\ all_finite (l3 v) /\
  forall L, map (@B2SF 24 128) (l4 (eye_space L (pose L p q) v)) = map (@B2SF 24 128) [f32_ofZ 13; f32_ofZ 21; f32_ofZ 32; f32_ofZ 1].
Proof.
  cbv zeta. split; [repeat apply Forall_cons; try apply Forall_nil; vm_compute; reflexivity|].
  split; [|split; [|split; [|intros L; vm_compute; reflexivity]]]; try (repeat apply Forall_cons; try apply Forall_nil; vm_compute; reflexivity).
  assert (E1 : b2r (Bdiv mode_NE (f32_ofZ 1) (f32_ofZ 2)) = 1 / 2) by (vm_compute; lra).
  unfold vals, lq. cbn [map qx qy qz qw]. rewrite E1.
  assert (N := norm_nn [1 / 2; 1 / 2; 1 / 2; 1 / 2]). assert (S := norm_sq [1 / 2; 1 / 2; 1 / 2; 1 / 2]).
  set (n := norm _) in *. unfold ip in S. cbn in S. rewrite uval. apply Rabs_le. split; nra.
Qed.
PROPS*)
