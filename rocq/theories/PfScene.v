(** * Proofs: points carried through a chain of poses in binary32 *)
From Coq Require Import ZArith Bool Reals List Lra Lia.
From Flocq Require Import Core IEEE754.BinarySingleNaN.
From Verif Require Import Scalar IEEE32 RealInst Types Outcome Spec SpecR SpecMat SpecGeo SpecF32 SpecErr SpecAcc SpecCamera SpecPlace SpecScene FloatBasics FloatOps
  ModelVec ModelMat ModelQuat ModelQuaternion ModelTransform ErrLib LenLib RealTac VecErrLib.
Import ListNotations.
Local Open Scope R_scope.
(*HEADER END*)
From Verif Require Import SpecDrift PfQuatAcc PfLook PfDrift PfInvQ PfRefract PfPlace.

Lemma good_unit n : good_node n -> unit_quat (unit_dir (snd n)).
Proof. intros (_ & _ & N). pose proof u_val as U. apply unit_dir_unit. apply Rabs_le_inv in N. change ulp_half with u in N. lra. Qed.
Lemma exact_len n V : length (exact_lift V n) = 3%nat.
Proof. reflexivity. Qed.
Lemma exact_norm n V : good_node n -> length V = 3%nat -> norm (exact_lift V n) <= norm V + norm (vals (l3 (fst n))).
Proof.
  intros G LV. unfold exact_lift. eapply Rle_trans; [apply triangle3; [apply qrot_len|reflexivity]|]. apply Rplus_le_compat_r.
  rewrite qrot_norm by exact LV. pose proof (good_unit n G) as UQ. unfold unit_quat in UQ. rewrite UQ. lra.
Qed.
Lemma exact_dist n V W : good_node n -> length V = 3%nat -> length W = 3%nat -> norm (vsub (exact_lift V n) (exact_lift W n)) = norm (vsub V W).
Proof.
  intros G LV LW. rewrite <- (qrot_iso (unit_dir (snd n)) V W (good_unit n G) LV LW). f_equal. unfold exact_lift.
  generalize (qrot_len (unit_dir (snd n)) V) (qrot_len (unit_dir (snd n)) W). generalize (qrot (unit_dir (snd n)) V) (qrot (unit_dir (snd n)) W). intros A B LA LB.
  generalize (eq_refl : length (vals (l3 (fst n))) = 3%nat). generalize (vals (l3 (fst n))). intros P LP. clear - LA LB LP. list3' A. list3' B. list3' P.
  unfold vsub, vadd. cbn. repeat (apply f_equal2; [ring|]). reflexivity.
Qed.
Lemma lift_near L (v : vec3 f32) n : good_node n -> all_finite (l3 v) -> norm (vals (l3 (fst n))) <= IZR (2 ^ 61) -> norm (vals (l3 v)) <= IZR (2 ^ 61) ->
  all_finite (l3 (lift L v n)) /\
  norm (vsub (vals (l3 (lift L v n))) (exact_lift (vals (l3 v)) n)) <= 186 * u * (norm (vals (l3 v)) + norm (vals (l3 (fst n)))) + 16 * tiny.
Proof.
  intros (Fp & Fq & Nq) Fv Np Nv. pose proof u_val as U. pose proof tiny_u as [T0 _]. destruct (C106_pose_pf L (fst n) (snd n) v Fq Nq Fp Fv Np Nv) as (A & _).
  unfold lift. cbv zeta in A. unfold xyz in A. set (o := eye_space L (pose L (fst n) (snd n)) v) in *. clearbody o. fold (exact_lift (vals (l3 v)) n) in A.
  set (X := exact_lift (vals (l3 v)) n) in *. clearbody X. change [x4 o; y4 o; z4 o] with (l3 (V3 (x4 o) (y4 o) (z4 o))) in A. set (r := V3 (x4 o) (y4 o) (z4 o)) in *. clearbody r.
  split; [revert A; generalize (l3 r); intros l A; induction A as [|c s l l' [Fc _] _ IH]; constructor; assumption|].
  unfold placing_error in A. change ulp_half with u in A. set (s := norm (vals (l3 v)) + norm (vals (l3 (fst n)))) in *.
  assert (0 <= u * s). { apply Rmult_le_pos; [lra|]. unfold s. pose proof (norm_nn (vals (l3 v))). pose proof (norm_nn (vals (l3 (fst n)))). lra. }
  apply PfRefract.close_norm in A as [_ A]; [|cbn; lia|replace (93 * u * s) with (93 * (u * s)) by ring; lra].
  unfold vsub. eapply Rle_trans; [exact A|]. lra.
Qed.
Lemma reach_app ns n V : reach (ns ++ [n]) V = reach ns V + norm (vals (l3 (fst n))).
Proof. unfold reach. rewrite map_app, fold_right_app. cbn [map fold_right]. assert (E : forall l a, fold_right Rplus a l = fold_right Rplus 0 l + a) by (induction l as [|x l IH]; intros a; cbn; [ring|rewrite IH; ring]). rewrite (E _ (offset n + 0)), Rplus_0_r. symmetry. apply Rplus_assoc. Qed.
Lemma reach_nn ns V : norm V <= reach ns V.
Proof. unfold reach. assert (0 <= fold_right Rplus 0 (map offset ns)) by (induction ns as [|n ns IH]; cbn [map fold_right]; [lra|apply Rplus_le_le_0_compat; [apply norm_nn|exact IH]]). lra. Qed.
Lemma per_level_ge n : 1 <= per_level ^ n.
Proof. apply pow_R1_Rle. unfold per_level. change ulp_half with u. pose proof u_val. lra. Qed.
Lemma carry_len ns V : length V = 3%nat -> length (exact_carry ns V) = 3%nat.
Proof. intros LV. unfold exact_carry. revert V LV. induction ns as [|n ns IH]; intros V LV; [exact LV|]. cbn [fold_left]. apply IH, exact_len. Qed.
Lemma carry_reach ns V : length V = 3%nat -> Forall good_node ns -> norm (exact_carry ns V) <= reach ns V.
Proof.
  intros LV. induction ns as [|n ns IH] using rev_ind; intros G; [unfold exact_carry, reach; cbn [fold_left map fold_right]; lra|]. apply Forall_app in G as [G Gn]. apply Forall_inv in Gn.
  unfold exact_carry. rewrite fold_left_app. cbn [fold_left]. fold (exact_carry ns V). rewrite reach_app. eapply Rle_trans; [apply exact_norm; [exact Gn|now apply carry_len]|]. pose proof (IH G). lra.
Qed.

(** A point carried up a chain of any number n of nodes, each a normalized rotation followed by a translation, is within
    ((1+186u)^n - 1) S + 16 n (1+186u)^n 2^-149 of the exactly carried point, where S is the length of the point plus that of all the translations;
    nothing overflows as long as (1+186u)^n (S + 16 n 2^-149) <= 2^61. *)
Lemma C107_carry_pf : forall (L : Libm) (ns : list node) (v : vec3 f32), Forall good_node ns -> all_finite (l3 v) -> in_reach ns (vals (l3 v)) ->
  all_finite (l3 (carry L ns v)) /\ norm (vsub (vals (l3 (carry L ns v))) (exact_carry ns (vals (l3 v)))) <= carry_error ns (vals (l3 v)).
Proof.
  intros L ns v. pose proof u_val as U. pose proof tiny_u as [T0 _]. set (V := vals (l3 v)). assert (LV : length V = 3%nat) by reflexivity.
  induction ns as [|n ns IH] using rev_ind; intros G Fv HR.
  - unfold carry, exact_carry, carry_error. cbn [fold_left length pow INR]. split; [exact Fv|]. fold V. replace (norm (vsub V V)) with 0; [lra|]. symmetry. clearbody V. list3' V. unfold vsub. cbn [zip]. rewrite !(Rminus_diag_eq _ _ eq_refl). apply norm000.
  - apply Forall_app in G as [G Gn]. apply Forall_inv in Gn. unfold in_reach, carry_error in *. rewrite app_length, reach_app in *. cbn [length] in *. rewrite Nat.add_1_r in *. rewrite S_INR in *. cbn [pow] in *.
    set (k := length ns) in *. set (g := per_level ^ k) in *. assert (G1 : 1 <= g) by apply per_level_ge. set (p := norm (vals (l3 (fst n)))) in *. assert (P0 : 0 <= p) by apply norm_nn.
    pose proof (reach_nn ns V) as RV. pose proof (norm_nn V) as NV. pose proof (carry_reach ns V LV G) as CR. pose proof (pos_INR k) as K0. set (S := reach ns V) in *. set (c := INR k) in *.
    assert (EG : per_level = 1 + 186 * u) by reflexivity. set (t := 16 * tiny) in *. assert (Pt : 0 < t) by (unfold t; lra).
    assert (Ps : 0 <= 186 * u) by lra. remember (186 * u) as d eqn:Ed. rewrite EG in *. clear U.
    replace (16 * (c + 1) * tiny) with ((c + 1) * t) in HR by (unfold t; ring). replace (16 * c * tiny) with (c * t) in IH by (unfold t; ring). replace (16 * c * g * tiny) with (c * g * t) in IH by (unfold t; ring).
    replace (16 * (c + 1) * ((1 + d) * g) * tiny) with ((c + 1) * ((1 + d) * g) * t) by (unfold t; ring).
    assert (HT : 0 <= (c + 1) * t) by (apply Rmult_le_pos; lra).
    assert (DG : g <= (1 + d) * g) by nra. assert (DG1 : 1 <= (1 + d) * g) by lra.
    assert (HR' : g * (S + p + (c + 1) * t) <= IZR (2 ^ 61)) by (eapply Rle_trans; [|exact HR]; apply Rmult_le_compat_r; lra).
    assert (HR0 : g * (S + c * t) <= IZR (2 ^ 61)) by (eapply Rle_trans; [|exact HR']; apply Rmult_le_compat_l; lra).
    destruct (IH G Fv HR0) as [FC EC]. clear IH. assert (CE : carry L (ns ++ [n]) v = lift L (carry L ns v) n) by (unfold carry; now rewrite fold_left_app).
    assert (XE : exact_carry (ns ++ [n]) V = exact_lift (exact_carry ns V) n) by (unfold exact_carry; now rewrite fold_left_app). rewrite CE, XE. clear CE XE.
    set (w := carry L ns v) in *. clearbody w. assert (LX := carry_len ns V LV). set (X := exact_carry ns V) in *. clearbody X. assert (Lw : length (vals (l3 w)) = 3%nat) by reflexivity.
    assert (NW : norm (vals (l3 w)) <= S + ((g - 1) * S + c * g * t)).
    { apply (norm_from_parts X (vsub (vals (l3 w)) X)); [exact LX|now apply vsub_len| |exact CR|exact EC].
      clear - Lw LX. revert Lw. generalize (vals (l3 w)). intros A LA. list3' A. list3' X. unfold vadd, vsub. cbn. repeat (apply f_equal2; [ring|]). reflexivity. }
    replace (S + ((g - 1) * S + c * g * t)) with (g * (S + c * t)) in NW by ring.
    assert (gp : p <= g * p) by nra. assert (gs : 0 <= g * (S + c * t)). { apply Rmult_le_pos; [lra|]. assert (0 <= c * t) by (apply Rmult_le_pos; lra). lra. }
    assert (NP : p <= IZR (2 ^ 61)). { eapply Rle_trans; [|exact HR']. eapply Rle_trans; [exact gp|]. apply Rmult_le_compat_l; lra. }
    destruct (lift_near L w n Gn FC NP ltac:(lra)) as [FL EL]. split; [exact FL|]. fold p t in EL.
    rewrite <- Ed in EL. pose proof (exact_dist n (vals (l3 w)) X Gn Lw LX) as ED. rewrite <- ED in EC. clear ED.
    assert (TR : norm (vsub (vals (l3 (lift L w n))) (exact_lift X n)) <= d * (norm (vals (l3 w)) + p) + t + ((g - 1) * S + c * g * t)).
    { apply (norm_from_parts (vsub (vals (l3 (lift L w n))) (exact_lift (vals (l3 w)) n)) (vsub (exact_lift (vals (l3 w)) n) (exact_lift X n))); [now apply vsub_len|now apply vsub_len| |exact EL|exact EC].
      generalize (exact_len n (vals (l3 w))) (exact_len n X) (eq_refl : length (vals (l3 (lift L w n))) = 3%nat). generalize (exact_lift (vals (l3 w)) n) (exact_lift X n) (vals (l3 (lift L w n))). clear. intros A B C LA LB LC.
      list3' A. list3' B. list3' C. unfold vadd, vsub. cbn. repeat (apply f_equal2; [ring|]). reflexivity. }
    eapply Rle_trans; [exact TR|]. assert (H1 : d * norm (vals (l3 w)) <= d * (g * (S + c * t))) by (apply Rmult_le_compat_l; assumption).
    assert (H2 : 0 <= (g - 1) * p) by (apply Rmult_le_pos; lra). assert (H3 : 0 <= d * ((g - 1) * p)) by now apply Rmult_le_pos.
    assert (H4 : t <= (1 + d) * g * t) by (rewrite <- (Rmult_1_l t) at 1; apply Rmult_le_compat_r; lra).
    set (a := norm (vals (l3 w))) in *. clearbody a. clear - H1 H2 H3 H4.
    replace (((1 + d) * g - 1) * (S + p) + (c + 1) * ((1 + d) * g) * t) with (d * (g * (S + c * t)) + d * p + (1 + d) * g * t + ((g - 1) * S + c * g * t) + ((g - 1) * p + d * ((g - 1) * p))) by ring. lra.
Qed.
Lemma pow_linear x n : 0 <= x -> INR n * x <= / 2 -> (1 + x) ^ n <= 1 + 2 * (INR n * x).
Proof.
  intros Px. induction n as [|n IH]; intros H; [cbn; lra|]. rewrite S_INR in *. cbn [pow]. pose proof (pos_INR n) as P. assert (H' : INR n * x <= / 2) by lra. specialize (IH H').
  assert (P' : 0 <= INR n * x) by now apply Rmult_le_pos. set (y := INR n * x) in *. replace ((INR n + 1) * x) with (y + x) by (unfold y; ring). clearbody y.
  apply Rle_trans with ((1 + x) * (1 + 2 * y)); [apply Rmult_le_compat_l; lra|]. nra.
Qed.
(** Up to 45000 levels the error grows at most linearly with the depth. *)
Lemma C107_linear_pf : forall (L : Libm) (ns : list node) (v : vec3 f32), (length ns <= 450 * 100)%nat -> Forall good_node ns -> all_finite (l3 v) -> reach ns (vals (l3 v)) <= IZR (2 ^ 59) ->
  all_finite (l3 (carry L ns v)) /\
  norm (vsub (vals (l3 (carry L ns v))) (exact_carry ns (vals (l3 v)))) <= INR (length ns) * (372 * ulp_half * reach ns (vals (l3 v)) + 32 * tiny).
Proof.
  intros L ns v Hn G Fv HR. pose proof u_val as U. pose proof tiny_u as [T0 T1]. apply le_INR in Hn. rewrite mult_INR in Hn. replace (INR 450) with 450 in Hn by (rewrite INR_IZR_INZ; reflexivity). replace (INR 100) with 100 in Hn by (rewrite INR_IZR_INZ; reflexivity).
  pose proof (pos_INR (length ns)) as P. assert (HX : INR (length ns) * (186 * u) <= / 2) by nra. pose proof (pow_linear _ _ (ltac:(lra) : 0 <= 186 * u) HX) as PL.
  pose proof (per_level_ge (length ns)) as G1. unfold per_level in G1. change ulp_half with u in *. pose proof (reach_nn ns (vals (l3 v))) as RV. pose proof (norm_nn (vals (l3 v))) as NV.
  assert (T2 : tiny <= / 100000000). { eapply Rle_trans; [exact T1|]. assert (/ IZR (2 ^ 60) <= 1) by (rewrite <- Rinv_1; apply Rinv_le_contravar; [lra|apply IZR_le; discriminate]). assert (0 < / IZR (2 ^ 60)) by (apply Rinv_0_lt_compat; now apply IZR_lt). nra. }
  assert (B : 2 * (IZR (2 ^ 59) + 1) <= IZR (2 ^ 61)). { rewrite <- plus_IZR, <- mult_IZR. apply IZR_le. discriminate. }
  destruct (C107_carry_pf L ns v G Fv) as [F K].
  { unfold in_reach, per_level. change ulp_half with u. set (g := (1 + 186 * u) ^ length ns) in *. set (S := reach ns (vals (l3 v))) in *. set (c := INR (length ns)) in *.
    assert (g <= 2) by lra. assert (16 * c * tiny <= 1). { assert (c * tiny <= 45000 * / 100000000) by (apply Rmult_le_compat; lra). lra. } assert (0 <= c * tiny) by (apply Rmult_le_pos; lra). apply Rle_trans with (2 * (S + 16 * c * tiny)); [apply Rmult_le_compat_r; lra|]. lra. }
  split; [exact F|]. eapply Rle_trans; [exact K|]. unfold carry_error, per_level. change ulp_half with u. set (g := (1 + 186 * u) ^ length ns) in *. set (S := reach ns (vals (l3 v))) in *. set (c := INR (length ns)) in *.
  assert (H1 : (g - 1) * S <= 2 * (c * (186 * u)) * S) by (apply Rmult_le_compat_r; lra).
  assert (H2 : 16 * c * g * tiny <= 16 * c * 2 * tiny). { apply Rmult_le_compat_r; [lra|]. apply Rmult_le_compat_l; lra. }
  replace (c * (372 * u * S + 32 * tiny)) with (2 * (c * (186 * u)) * S + 16 * c * 2 * tiny) by ring. lra.
Qed.
Lemma carry_dist ns V W : Forall good_node ns -> length V = 3%nat -> length W = 3%nat -> norm (vsub (exact_carry ns V) (exact_carry ns W)) = norm (vsub V W).
Proof.
  intros G. revert V W. induction G as [|n ns Gn G IH]; intros V W LV LW; [reflexivity|]. unfold exact_carry. cbn [fold_left]. fold (exact_carry ns (exact_lift V n)) (exact_carry ns (exact_lift W n)).
  rewrite IH by apply exact_len. now apply exact_dist.
Qed.
(** Bodies stay rigid: two points carried through the same chain are as far apart as before, up to the sum of their errors. *)
Lemma C107_rigid_pf : forall (L : Libm) (ns : list node) (v w : vec3 f32), Forall good_node ns -> all_finite (l3 v) -> all_finite (l3 w) -> in_reach ns (vals (l3 v)) -> in_reach ns (vals (l3 w)) ->
  Rabs (norm (vsub (vals (l3 (carry L ns v))) (vals (l3 (carry L ns w)))) - norm (vsub (vals (l3 v)) (vals (l3 w)))) <= carry_error ns (vals (l3 v)) + carry_error ns (vals (l3 w)).
Proof.
  intros L ns v w G Fv Fw Rv Rw. destruct (C107_carry_pf L ns v G Fv Rv) as [_ A]. destruct (C107_carry_pf L ns w G Fw Rw) as [_ B].
  rewrite <- (carry_dist ns (vals (l3 v)) (vals (l3 w)) G eq_refl eq_refl).
  assert (LX : length (exact_carry ns (vals (l3 v))) = 3%nat) by now apply carry_len. assert (LY : length (exact_carry ns (vals (l3 w))) = 3%nat) by now apply carry_len.
  set (X := exact_carry ns (vals (l3 v))) in *. set (Y := exact_carry ns (vals (l3 w))) in *. clearbody X Y.
  set (e := carry_error ns (vals (l3 v))) in *. set (f := carry_error ns (vals (l3 w))) in *. clearbody e f.
  assert (LO : length (vals (l3 (carry L ns v))) = 3%nat) by reflexivity. assert (LP : length (vals (l3 (carry L ns w))) = 3%nat) by reflexivity.
  set (O := vals (l3 (carry L ns v))) in *. set (P := vals (l3 (carry L ns w))) in *. clearbody O P. clear - A B LX LY LO LP.
  assert (A' : norm (vsub X O) <= e) by (replace (vsub X O) with (vscale (-1) (vsub O X)) by (list3' O; list3' X; unfold vsub, vscale; cbn; repeat (apply f_equal2; [ring|]); reflexivity); rewrite norm_scale3, Rabs_left by lra; lra).
  assert (B' : norm (vsub Y P) <= f) by (replace (vsub Y P) with (vscale (-1) (vsub P Y)) by (list3' P; list3' Y; unfold vsub, vscale; cbn; repeat (apply f_equal2; [ring|]); reflexivity); rewrite norm_scale3, Rabs_left by lra; lra).
  assert (T : forall A B C D a b, length A = 3%nat -> length B = 3%nat -> length C = 3%nat -> length D = 3%nat -> norm (vsub A C) <= a -> norm (vsub D B) <= b -> norm (vsub A B) <= a + (norm (vsub C D) + b)).
  { clear. intros A B C D a b LA LB LC LD H K. apply (norm_from_parts (vsub A C) (vadd (vsub C D) (vsub D B))); [now apply vsub_len| | |exact H|].
    - list3' B. list3' C. list3' D. reflexivity.
    - list3' A. list3' B. list3' C. list3' D. unfold vsub, vadd. cbn. repeat (apply f_equal2; [ring|]). reflexivity.
    - apply (norm_from_parts (vsub C D) (vsub D B)); [now apply vsub_len|now apply vsub_len|reflexivity|lra|exact K]. }
  pose proof (T O P X Y e f LO LP LX LY A B') as H1. pose proof (T X Y O P e f LX LY LO LP A' B) as H2. apply Rabs_le. lra.
Qed.
(*PROPS
(** two levels, each turning by (1/2, 1/2, 1/2, 1/2) and moving by (10, 20, 30): (1, 2, 3) goes to (13, 21, 32) and then to (42, 33, 51) *)
Example C107_case : let h := Bdiv mode_NE (f32_ofZ 1) (f32_ofZ 2) in let q := Quat h h h h in
  let n : node := (V3 (f32_ofZ 10) (f32_ofZ 20) (f32_ofZ 30), q) in let v := V3 (f32_ofZ 1) (f32_ofZ 2) (f32_ofZ 3) in
  Forall good_node [n; n] /\ all_finite (l3 v) /\ reach [n; n] (vals (l3 v)) <= IZR (2 ^ 59) /\
  forall L, map (@B2SF 24 128) (l3 (carry L [n; n] v)) = map (@B2SF 24 128) [f32_ofZ 42; f32_ofZ 33; f32_ofZ 51].
Proof.
  cbv zeta. split; [|split; [|split; [|intros L; vm_compute; reflexivity]]].
  - assert (G : good_node (V3 (f32_ofZ 10) (f32_ofZ 20) (f32_ofZ 30), Quat (Bdiv mode_NE (f32_ofZ 1) (f32_ofZ 2)) (Bdiv mode_NE (f32_ofZ 1) (f32_ofZ 2)) (Bdiv mode_NE (f32_ofZ 1) (f32_ofZ 2)) (Bdiv mode_NE (f32_ofZ 1) (f32_ofZ 2)))).
    { split; [|split]; try (repeat apply Forall_cons; try apply Forall_nil; vm_compute; reflexivity).
      assert (E1 : b2r (Bdiv mode_NE (f32_ofZ 1) (f32_ofZ 2)) = 1 / 2) by (vm_compute; lra).
      unfold vals, lq. cbn [snd map qx qy qz qw]. rewrite E1.
      assert (N := norm_nn [1 / 2; 1 / 2; 1 / 2; 1 / 2]). assert (S := norm_sq [1 / 2; 1 / 2; 1 / 2; 1 / 2]).
      set (n := norm _) in *. unfold ip in S. cbn in S. rewrite uval. apply Rabs_le. split; nra. }
    repeat apply Forall_cons; try apply Forall_nil; exact G.
  - repeat apply Forall_cons; try apply Forall_nil; vm_compute; reflexivity.
  - unfold reach, offset. cbn [map fold_right fst]. unfold vals, l3. cbn [map x3 y3 z3]. rewrite !ofZ_exact by reflexivity.
    assert (N1 : norm [10; 20; 30] <= 60) by (apply sq_le_norm; [lra|unfold ip; cbn; lra]). assert (N2 : norm [1; 2; 3] <= 6) by (apply sq_le_norm; [lra|unfold ip; cbn; lra]).
    apply Rle_trans with 126; [lra|]. apply IZR_le. discriminate.
Qed.
PROPS*)
