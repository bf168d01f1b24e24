(** * Proofs: accuracy of the matrix to quaternion conversion *)
From Coq Require Import ZArith Bool Reals List Lra Lia.
From Flocq Require Import Core IEEE754.BinarySingleNaN.
From Verif Require Import Scalar IEEE32 RealInst Types Outcome Spec SpecR SpecMat SpecGeo SpecF32 SpecErr SpecOrd SpecDom SpecAcc FloatBasics FloatOps
  ModelVec ModelCommon ModelExp ModelGeom ModelMat ModelMatrix ModelQuat ModelQuaternion ModelConst ErrLib OvfLib F32Tac RealTac.
Import ListNotations.
Local Open Scope R_scope.
(*HEADER END*)
From Coq Require Import Psatz.
From Verif Require Import FloatAlg NumLib PfErr PfOvf PfLen ScaleLib LenLib MonoLib DomLib PfDomain RealTac.

Notation u := ulp_half.
Lemma u_val : 0 < u <= / 16777216.
Proof. unfold u. change (2 ^ 24)%Z with 16777216%Z. lra. Qed.
Lemma u32_u : u32 = u. Proof. reflexivity. Qed.
Lemma eta_small : 0 < eta32 <= u / 1000.
Proof.
  split; [apply bpow_gt_0|]. rewrite <- u32_u. unfold eta32, u32. change (-150)%Z with (-24 + -126)%Z. rewrite bpow_plus.
  pose proof (bpow_gt_0 radix2 (-24)). assert (bpow radix2 (-126) <= bpow radix2 (-10)) by (apply bpow_le; lia).
  change (bpow radix2 (-10)) with (/ 1024) in *. nra.
Qed.
(** absolute error of one rounding *)
Lemma rnd_abs_err x B : - B <= x <= B -> - (u * B + u / 1000) <= rnd x - x <= u * B + u / 1000.
Proof.
  intros H. destruct (rnd_error x) as (e & t & He & Ht & _ & E). rewrite E, <- u32_u. pose proof eta_small as K. rewrite <- u32_u in K.
  apply Rabs_le_inv in He, Ht. assert (G : Rabs (x * e) <= u32 * B).
  { rewrite Rabs_mult, Rmult_comm. apply Rmult_le_compat; try apply Rabs_pos; [now apply Rabs_le|now apply Rabs_le]. }
  apply Rabs_le_inv in G. lra.
Qed.
Lemma sqrt_near A B e : 0 <= A -> 0 <= B -> (98/100 <= A) -> (98/100 <= B) -> - e <= A - B <= e -> - (e * 100 / 197) <= sqrt A - sqrt B <= e * 100 / 197.
Proof.
  intros HA HB LA LB H. pose proof (sqrt_pos A). pose proof (sqrt_pos B). pose proof (sqrt_sqrt A HA). pose proof (sqrt_sqrt B HB).
  assert (985/1000 <= sqrt A) by nra. assert (985/1000 <= sqrt B) by nra.
  assert (E : (sqrt A - sqrt B) * (sqrt A + sqrt B) = A - B) by nra. split; nra.
Qed.

Lemma prod_bound a b A B : - A <= a <= A -> - B <= b <= B -> - (A * B) <= a * b <= A * B.
Proof. intros Ha Hb. apply Rabs_le_inv. rewrite Rabs_mult. apply Rmult_le_compat; try apply Rabs_pos; now apply Rabs_le. Qed.

Section Core.
Variables (dl pk : R) (y : f32).
Hypothesis Hd : 0 <= dl <= / 1000.
Hypothesis Hp : 0 <= pk <= 1.
Hypothesis Hq : 248 / 1000 <= pk * pk.
Hypothesis Fy : finite y.
Hypothesis Hy : - (3 * dl + 6 * u) <= b2r y - (4 * (pk * pk) - 1) <= 3 * dl + 6 * u.
Let v := Bmult mode_NE (Bsqrt mode_NE (Bplus mode_NE y (f32_lit 1 0))) (f32_lit 5 (-1)).
Let mult := Bdiv mode_NE (f32_lit 25 (-2)) v.
Lemma qlit : b2r (f32_lit 25 (-2)) = / 4. Proof. unfold f32_lit; vm_compute; lra. Qed.
Lemma biggest : finite v /\ - (77 / 100 * dl + 5 * u) <= b2r v - pk <= 77 / 100 * dl + 5 * u.
Proof.
  pose proof u_val as U. assert (Wy : within 2 y). { split; [exact Fy|]. apply Rabs_le. change (p2 2) with 4. split; nra. }
  assert (W1 : within 0 (f32_lit 1 0)) by (split; [reflexivity|rewrite b2r_lit1, Rabs_R1; cbn; lra]).
  assert (Wh : within (-1) (f32_lit 5 (-1))) by (split; [reflexivity|rewrite b2r_lit_half, Rabs_pos_eq; cbn; lra]).
  destruct (w_add 2 0 3 y _ Wy W1) as [W2 E2]; try lia. rewrite b2r_lit1 in E2.
  set (A := b2r (Bplus mode_NE y (f32_lit 1 0))) in *.
  assert (KA : - (3 * dl + 11 * u) <= A - 4 * (pk * pk) <= 3 * dl + 11 * u).
  { pose proof (rnd_abs_err (b2r y + 1) (4 + / 100)) as K. rewrite <- E2 in K. assert (- (4 + / 100) <= b2r y + 1 <= 4 + / 100) by (split; nra). specialize (K H). lra. }
  assert (PA : 98/100 <= A) by lra.
  destruct (w_sqrt 3 2 _ W2) as (W3 & P3 & E3); try lia; [fold A; lra|]. fold A in E3.
  assert (KS : - ((3 * dl + 11 * u) * 100 / 197) <= sqrt A - 2 * pk <= (3 * dl + 11 * u) * 100 / 197).
  { pose proof (sqrt_near A (4 * (pk * pk)) (3 * dl + 11 * u)) as K. replace (sqrt (4 * (pk * pk))) with (2 * pk) in K; [apply K; lra|].
    replace (4 * (pk * pk)) with ((2 * pk) * (2 * pk)) by ring. rewrite sqrt_square; lra. }
  set (S := b2r (Bsqrt mode_NE (Bplus mode_NE y (f32_lit 1 0)))) in *.
  pose proof (sqrt_pos A) as PS.
  pose proof (rnd_abs_err (sqrt A) (2 + / 100)) as K3. rewrite <- E3 in K3. assert (B3 : - (2 + / 100) <= sqrt A <= 2 + / 100) by lra. specialize (K3 B3).
  destruct (w_mul 2 (-1) 1 _ _ W3 Wh) as [W4 E4]; try lia. fold v in W4, E4. rewrite b2r_lit_half in E4. fold S in E4.
  split; [apply W4|].
  pose proof (rnd_abs_err (S * / 2) (1 + / 100)) as K4. rewrite <- E4 in K4. assert (B4 : - (1 + / 100) <= S * / 2 <= 1 + / 100) by lra. specialize (K4 B4). lra.
Qed.
Lemma multiplier : finite mult /\ within 0 mult /\ 49 / 100 <= b2r v /\ - (53/100 * u) <= b2r mult - / 4 / b2r v <= 53/100 * u /\ 0 <= b2r mult <= 52/100.
Proof.
  pose proof u_val as U. destruct biggest as [Fv Kv]. assert (497/1000 <= pk) by nra. assert (Gv : 49/100 <= b2r v) by lra.
  assert (Wq : within (-2) (f32_lit 25 (-2))) by (split; [reflexivity|]; rewrite qlit, Rabs_pos_eq; cbn; lra).
  destruct (w_div (-2) 2 0 _ v Wq Fv) as [Wm Em]; try lia. { rewrite Rabs_pos_eq by lra. change (p2 (- (2))) with (/ 4). lra. }
  fold mult in Wm, Em. rewrite qlit in Em.
  assert (I : 0 <= / 4 / b2r v <= 5103/10000). { split; [apply Rmult_le_pos; [lra|left; apply Rinv_0_lt_compat; lra]|]. apply (Rmult_le_reg_r (b2r v)); [lra|]. unfold Rdiv. rewrite Rmult_assoc, Rinv_l by lra. lra. }
  pose proof (rnd_abs_err (/ 4 / b2r v) (5103/10000)) as K. rewrite <- Em in K. assert (B : - (5103/10000) <= / 4 / b2r v <= 5103/10000) by lra. specialize (K B).
  split; [apply Wm|]. split; [exact Wm|]. split; [exact Gv|]. split; [lra|]. split; [|lra]. rewrite Em. apply rnd_pos. lra.
Qed.
Lemma component (N : f32) pj : finite N -> -1 <= pj <= 1 -> -1 <= 2 * (pk * pj) <= 1 -> - (2 * dl + 3 * u) <= b2r N - 4 * (pk * pj) <= 2 * dl + 3 * u ->
  finite (Bmult mode_NE N mult) /\ - (3 * dl + 16 * u) <= b2r (Bmult mode_NE N mult) - pj <= 3 * dl + 16 * u.
Proof.
  intros FN Bj Bp KN. pose proof u_val as U. destruct biggest as [Fv Kv]. destruct multiplier as (Fm & Wm & Gv & Km & Pm).
  assert (WN : within 2 N). { split; [exact FN|]. apply Rabs_le. change (p2 2) with 4. lra. }
  destruct (w_mul 2 0 2 N mult WN Wm) as [W E]; try lia. split; [apply W|]. rewrite E.
  assert (BN : -(201/100) <= b2r N <= 201/100) by lra.
  assert (Pm' : - (52/100) <= b2r mult <= 52/100) by lra. assert (BM : -(105/100) <= b2r N * b2r mult <= 105/100) by (pose proof (prod_bound _ _ _ _ BN Pm'); lra).
  pose proof (rnd_abs_err _ _ BM) as K.
  (* N mult - pj = (N - N0) mult + N0 (mult - 1/(4v)) + pj (pk - v) / v *)
  assert (Q : b2r N * b2r mult - pj = (b2r N - 4 * (pk * pj)) * b2r mult + 4 * (pk * pj) * (b2r mult - / 4 / b2r v) + pj * ((pk - b2r v) / b2r v)) by (field; lra).
  assert (T1 : - ((2 * dl + 3 * u) * (52/100)) <= (b2r N - 4 * (pk * pj)) * b2r mult <= (2 * dl + 3 * u) * (52/100)) by now apply prod_bound.
  assert (T2 : - (106/100 * u) <= 4 * (pk * pj) * (b2r mult - / 4 / b2r v) <= 106/100 * u).
  { assert (M : - (2) <= 4 * (pk * pj) <= 2) by lra. pose proof (prod_bound _ _ _ _ M Km). lra. }
  assert (T3 : - ((77 / 100 * dl + 5 * u) * (100/49)) <= (pk - b2r v) / b2r v <= (77 / 100 * dl + 5 * u) * (100/49)).
  { assert (J : 0 < / b2r v <= 100/49). { split; [apply Rinv_0_lt_compat; lra|]. replace (100/49) with (/ (49/100)) by field. apply Rinv_le_contravar; lra. }
    apply prod_bound; lra. }
  set (d := (pk - b2r v) / b2r v) in *.
  assert (Bj' : - (1) <= pj <= 1) by lra. pose proof (prod_bound _ _ _ _ Bj' T3) as T4.
  lra.
Qed.
End Core.

(** ** The four candidates *)
Section Cast.
Variable dl : R.
Hypothesis Hd : 0 <= dl <= / 1000.
Definition close (e : R) (c : f32) (r : R) : Prop := finite c /\ - e <= b2r c - r <= e.
Lemma close_within c r : close dl c r -> -1 <= r <= 1 -> within 1 c.
Proof. intros [F H] B. split; [exact F|]. apply Rabs_le. change (p2 1) with 2. lra. Qed.
Lemma two_diff a b ra rb : close dl a ra -> close dl b rb -> -1 <= ra <= 1 -> -1 <= rb <= 1 -> close (2 * dl + 3 * u) (Bminus mode_NE a b) (ra - rb).
Proof.
  intros Ha Hb Ba Bb. pose proof u_val as U. destruct (w_sub 1 1 2 a b) as [W E]; [now apply (close_within a ra)|now apply (close_within b rb)|lia..|]. split; [apply W|]. rewrite E.
  destruct Ha as [_ Ha], Hb as [_ Hb]. assert (B : - (2 + / 100) <= b2r a - b2r b <= 2 + / 100) by lra. pose proof (rnd_abs_err _ _ B). lra.
Qed.
Lemma two_sum a b ra rb : close dl a ra -> close dl b rb -> -1 <= ra <= 1 -> -1 <= rb <= 1 -> close (2 * dl + 3 * u) (Bplus mode_NE a b) (ra + rb).
Proof.
  intros Ha Hb Ba Bb. pose proof u_val as U. destruct (w_add 1 1 2 a b) as [W E]; [now apply (close_within a ra)|now apply (close_within b rb)|lia..|]. split; [apply W|]. rewrite E.
  destruct Ha as [_ Ha], Hb as [_ Hb]. assert (B : - (2 + / 100) <= b2r a + b2r b <= 2 + / 100) by lra. pose proof (rnd_abs_err _ _ B). lra.
Qed.
Lemma three_diff a b c ra rb rc : close dl a ra -> close dl b rb -> close dl c rc -> -1 <= ra <= 1 -> -1 <= rb <= 1 -> -1 <= rc <= 1 ->
  close (3 * dl + 6 * u) (Bminus mode_NE (Bminus mode_NE a b) c) (ra - rb - rc).
Proof.
  intros Ha Hb Hc Ba Bb Bc. pose proof u_val as U. destruct (w_sub 1 1 2 a b) as [W E]; [now apply (close_within a ra)|now apply (close_within b rb)|lia..|].
  pose proof (close_within _ _ Hc Bc) as Wc. destruct (w_sub 2 1 3 _ c W Wc) as [W' E']; try lia. split; [apply W'|]. rewrite E'.
  destruct Ha as [_ Ha], Hb as [_ Hb], Hc as [_ Hc]. assert (B : - (2 + / 100) <= b2r a - b2r b <= 2 + / 100) by lra. pose proof (rnd_abs_err _ _ B) as K. rewrite <- E in K.
  set (d := b2r (Bminus mode_NE a b)) in *. assert (B' : - (3 + 2 / 100) <= d - b2r c <= 3 + 2 / 100) by lra. pose proof (rnd_abs_err _ _ B'). lra.
Qed.
Lemma three_sum a b c ra rb rc : close dl a ra -> close dl b rb -> close dl c rc -> -1 <= ra <= 1 -> -1 <= rb <= 1 -> -1 <= rc <= 1 ->
  close (3 * dl + 6 * u) (Bplus mode_NE (Bplus mode_NE a b) c) (ra + rb + rc).
Proof.
  intros Ha Hb Hc Ba Bb Bc. pose proof u_val as U. destruct (w_add 1 1 2 a b) as [W E]; [now apply (close_within a ra)|now apply (close_within b rb)|lia..|].
  pose proof (close_within _ _ Hc Bc) as Wc. destruct (w_add 2 1 3 _ c W Wc) as [W' E']; try lia. split; [apply W'|]. rewrite E'.
  destruct Ha as [_ Ha], Hb as [_ Hb], Hc as [_ Hc]. assert (B : - (2 + / 100) <= b2r a + b2r b <= 2 + / 100) by lra. pose proof (rnd_abs_err _ _ B) as K. rewrite <- E in K.
  set (d := b2r (Bplus mode_NE a b)) in *. assert (B' : - (3 + 2 / 100) <= d + b2r c <= 3 + 2 / 100) by lra. pose proof (rnd_abs_err _ _ B'). lra.
Qed.
End Cast.

(** the branch taken is one whose candidate is the largest *)
Lemma qc_shape L (a00 a01 a02 a10 a11 a12 a20 a21 a22 : f32) :
  let X := Bminus mode_NE (Bminus mode_NE a00 a11) a22 in let Y := Bminus mode_NE (Bminus mode_NE a11 a00) a22 in
  let Z := Bminus mode_NE (Bminus mode_NE a22 a00) a11 in let W := Bplus mode_NE (Bplus mode_NE a00 a11) a22 in
  finite X -> finite Y -> finite Z -> finite W ->
  exists (y : f32) (n : nat), match n with O => y = W | S O => y = X | S (S O) => y = Y | _ => y = Z end /\
    b2r X <= b2r y /\ b2r Y <= b2r y /\ b2r Z <= b2r y /\ b2r W <= b2r y /\
      let v := Bmult mode_NE (Bsqrt mode_NE (Bplus mode_NE y (f32_lit 1 0))) (f32_lit 5 (-1)) in let mult := Bdiv mode_NE (f32_lit 25 (-2)) v in
      quat_cast3 (F32 L) (M3 (V3 a00 a01 a02) (V3 a10 a11 a12) (V3 a20 a21 a22)) =
      match n with
      | O => Quat (Bmult mode_NE (Bminus mode_NE a12 a21) mult) (Bmult mode_NE (Bminus mode_NE a20 a02) mult) (Bmult mode_NE (Bminus mode_NE a01 a10) mult) v
      | S O => Quat v (Bmult mode_NE (Bplus mode_NE a01 a10) mult) (Bmult mode_NE (Bplus mode_NE a20 a02) mult) (Bmult mode_NE (Bminus mode_NE a12 a21) mult)
      | S (S O) => Quat (Bmult mode_NE (Bplus mode_NE a01 a10) mult) v (Bmult mode_NE (Bplus mode_NE a12 a21) mult) (Bmult mode_NE (Bminus mode_NE a20 a02) mult)
      | _ => Quat (Bmult mode_NE (Bplus mode_NE a20 a02) mult) (Bmult mode_NE (Bplus mode_NE a12 a21) mult) v (Bmult mode_NE (Bminus mode_NE a01 a10) mult)
      end.
Proof.
  intros X Y Z W FX FY FZ FW.
  set (c1 := Bltb W X). set (y1 := if c1 then X else W). set (c2 := Bltb y1 Y). set (y2 := if c2 then Y else y1). set (c3 := Bltb y2 Z). set (y3 := if c3 then Z else y2).
  set (n := if c3 then 3%nat else if c2 then 2%nat else if c1 then 1%nat else 0%nat).
  assert (E1 : c1 = Rlt_bool (b2r W) (b2r X)) by now apply bltb_b2r.
  assert (P1 : finite y1 /\ b2r W <= b2r y1 /\ b2r X <= b2r y1). { unfold y1. rewrite E1. destruct (Rlt_bool_spec (b2r W) (b2r X)); ands; trivial; lra. }
  assert (E2 : c2 = Rlt_bool (b2r y1) (b2r Y)) by (apply bltb_b2r; [apply P1|exact FY]).
  assert (P2 : finite y2 /\ b2r y1 <= b2r y2 /\ b2r Y <= b2r y2). { unfold y2. rewrite E2. destruct (Rlt_bool_spec (b2r y1) (b2r Y)); ands; trivial; try apply P1; lra. }
  assert (E3 : c3 = Rlt_bool (b2r y2) (b2r Z)) by (apply bltb_b2r; [apply P2|exact FZ]).
  assert (P3 : finite y3 /\ b2r y2 <= b2r y3 /\ b2r Z <= b2r y3). { unfold y3. rewrite E3. destruct (Rlt_bool_spec (b2r y2) (b2r Z)); ands; trivial; try apply P2; lra. }
  exists y3, n. split; [unfold n, y3, y2, y1; destruct c3, c2, c1; reflexivity|]. ands; [lra..|].
  clear. unfold n, y3, c3, y2, c2, y1, c1. cbv -[Bplus Bmult Bminus Bdiv Bsqrt Bltb f32_lit].
  repeat (match goal with |- context [Bltb ?a ?b] => lazymatch a with context [Bltb] => fail | _ => destruct (Bltb a b) end end; cbn iota); reflexivity.
Qed.

Lemma sign_of r : exists s, (s = 1 \/ s = -1) /\ 0 <= s * r.
Proof. destruct (Rle_or_lt 0 r); [exists 1|exists (-1)]; split; [now left|lra|now right|lra]. Qed.

(** One branch: [pk] is the true value of the chosen component, [pa pb pc] the others. *)
Lemma one_branch dl y (Na Nb Nc : f32) pk pa pb pc : 0 <= dl <= / 1000 -> pk * pk + pa * pa + pb * pb + pc * pc = 1 -> 248 / 1000 <= pk * pk ->
  close (3 * dl + 6 * u) y (4 * (pk * pk) - 1) ->
  close (2 * dl + 3 * u) Na (4 * (pk * pa)) -> close (2 * dl + 3 * u) Nb (4 * (pk * pb)) -> close (2 * dl + 3 * u) Nc (4 * (pk * pc)) ->
  let v := Bmult mode_NE (Bsqrt mode_NE (Bplus mode_NE y (f32_lit 1 0))) (f32_lit 5 (-1)) in let mult := Bdiv mode_NE (f32_lit 25 (-2)) v in
  exists s, (s = 1 \/ s = -1) /\ close (3 * dl + 16 * u) v (s * pk) /\ close (3 * dl + 16 * u) (Bmult mode_NE Na mult) (s * pa) /\
    close (3 * dl + 16 * u) (Bmult mode_NE Nb mult) (s * pb) /\ close (3 * dl + 16 * u) (Bmult mode_NE Nc mult) (s * pc).
Proof.
  intros Hd N Q [Fy Ky] [Fa Ka] [Fb Kb] [Fc Kc] v mult. pose proof u_val as U. destruct (sign_of pk) as (s & S & P). exists s. split; [exact S|].
  assert (S2 : s * s = 1) by (destruct S as [-> | ->]; lra).
  assert (B1 : 0 <= s * pk <= 1) by (split; [exact P|]; assert ((s * pk) * (s * pk) <= 1) by (replace ((s * pk) * (s * pk)) with ((s * s) * (pk * pk)) by ring; rewrite S2; nra); nra).
  assert (B2 : 248 / 1000 <= (s * pk) * (s * pk)) by (replace ((s * pk) * (s * pk)) with ((s * s) * (pk * pk)) by ring; rewrite S2; lra).
  assert (Ky' : - (3 * dl + 6 * u) <= b2r y - (4 * ((s * pk) * (s * pk)) - 1) <= 3 * dl + 6 * u) by (replace ((s * pk) * (s * pk)) with ((s * s) * (pk * pk)) by ring; rewrite S2; lra).
  assert (T : forall r, pk * pk + r * r <= 1 -> -1 <= s * r <= 1 /\ -1 <= 2 * (s * pk * (s * r)) <= 1 /\ s * pk * (s * r) = pk * r).
  { intros r Hr. replace (s * pk * (s * r)) with ((s * s) * (pk * r)) by ring. rewrite S2.
    assert (-1 <= r <= 1) by (clear - Hr; pose proof (Rle_0_sqr pk); unfold Rsqr in *; nra). pose proof (Rle_0_sqr (pk - r)). pose proof (Rle_0_sqr (pk + r)). unfold Rsqr in *.
    split; [destruct S as [-> | ->]; lra|split; [lra|ring]]. }
  split.
  - destruct (biggest dl (s * pk) y Hd B1 B2 Fy Ky') as [F K]. fold v in F, K. split; [exact F|]. lra.
  - assert (C : forall (M : f32) r, finite M -> pk * pk + r * r <= 1 -> - (2 * dl + 3 * u) <= b2r M - 4 * (pk * r) <= 2 * dl + 3 * u -> close (3 * dl + 16 * u) (Bmult mode_NE M mult) (s * r)).
    { intros M r FM Hr K. destruct (T r Hr) as (T1 & T2 & T3). apply (component dl (s * pk) y Hd B1 B2 Fy Ky' M (s * r) FM T1 T2). rewrite T3. exact K. }
    ands; apply C; trivial; nra.
Qed.

Lemma Forall2_cons_iff {A B} (P : A -> B -> Prop) a b l m : Forall2 P (a :: l) (b :: m) -> P a b /\ Forall2 P l m.
Proof. intros H. inversion H; now split. Qed.
Lemma off_range a b c d k : (k = 1 \/ k = -1) -> a * a + b * b + c * c + d * d = 1 -> -1 <= 2 * (a * b + k * (c * d)) <= 1.
Proof.
  intros K N. pose proof (Rle_0_sqr (a - b)). pose proof (Rle_0_sqr (a + b)). pose proof (Rle_0_sqr (c - d)). pose proof (Rle_0_sqr (c + d)). unfold Rsqr in *.
  destruct K as [-> | ->]; lra.
Qed.
Lemma cast_close L m x y z w dl : 0 <= dl <= / 1000 -> x * x + y * y + z * z + w * w = 1 ->
  Forall2 (close dl) (lm3 m) (rotation_entries (-1) x y z w) ->
  exists s, (s = 1 \/ s = -1) /\ Forall2 (close (3 * dl + 16 * u)) (lq (quat_cast3 (F32 L) m)) [s * x; s * y; s * z; s * w].
Proof.
  intros Hd N. destruct m as [[a00 a01 a02] [a10 a11 a12] [a20 a21 a22]]. unfold rotation_entries. cbn [lm3 l3 concat app m3c0 m3c1 m3c2 x3 y3 z3]. intros F.
  apply Forall2_cons_iff in F as [A00 F]. apply Forall2_cons_iff in F as [A01 F]. apply Forall2_cons_iff in F as [A02 F]. apply Forall2_cons_iff in F as [A10 F]. apply Forall2_cons_iff in F as [A11 F]. apply Forall2_cons_iff in F as [A12 F]. apply Forall2_cons_iff in F as [A20 F]. apply Forall2_cons_iff in F as [A21 F]. apply Forall2_cons_iff in F as [A22 F]. clear F.
  assert (B00 : -1 <= 1 + -1 * (2 * (y * y + z * z)) <= 1) by nra. assert (B11 : -1 <= 1 + -1 * (2 * (x * x + z * z)) <= 1) by nra.
  assert (B22 : -1 <= 1 + -1 * (2 * (x * x + y * y)) <= 1) by nra.
  assert (B01 : -1 <= 2 * (x * y + w * z) <= 1) by (replace (w * z) with (1 * (w * z)) by ring; apply off_range; lra).
  assert (B02 : -1 <= 2 * (x * z + -1 * (w * y)) <= 1) by (apply off_range; lra).
  assert (B10 : -1 <= 2 * (x * y + -1 * (w * z)) <= 1) by (apply off_range; lra).
  assert (B12 : -1 <= 2 * (y * z + w * x) <= 1) by (replace (w * x) with (1 * (w * x)) by ring; apply off_range; lra).
  assert (B20 : -1 <= 2 * (x * z + w * y) <= 1) by (replace (w * y) with (1 * (w * y)) by ring; apply off_range; lra).
  assert (B21 : -1 <= 2 * (y * z + -1 * (w * x)) <= 1) by (apply off_range; lra).
  assert (CE : forall e (c : f32) r r', close e c r -> r = r' -> close e c r') by (intros; subst; trivial).
  assert (CX := CE _ _ _ (4 * (x * x) - 1) (three_diff dl Hd _ _ _ _ _ _ A00 A11 A22 B00 B11 B22) ltac:(nra)).
  assert (CY := CE _ _ _ (4 * (y * y) - 1) (three_diff dl Hd _ _ _ _ _ _ A11 A00 A22 B11 B00 B22) ltac:(nra)).
  assert (CZ := CE _ _ _ (4 * (z * z) - 1) (three_diff dl Hd _ _ _ _ _ _ A22 A00 A11 B22 B00 B11) ltac:(nra)).
  assert (CW := CE _ _ _ (4 * (w * w) - 1) (three_sum dl Hd _ _ _ _ _ _ A00 A11 A22 B00 B11 B22) ltac:(nra)).
  destruct (qc_shape L a00 a01 a02 a10 a11 a12 a20 a21 a22 (proj1 CX) (proj1 CY) (proj1 CZ) (proj1 CW)) as (f & n & En & GX & GY & GZ & GW & E). cbv zeta in E. rewrite E. clear E.
  pose proof u_val as U.
  assert (D1 := CE _ _ _ (4 * (w * x)) (two_diff dl Hd _ _ _ _ A12 A21 B12 B21) ltac:(ring)).
  assert (D2 := CE _ _ _ (4 * (w * y)) (two_diff dl Hd _ _ _ _ A20 A02 B20 B02) ltac:(ring)).
  assert (D3 := CE _ _ _ (4 * (w * z)) (two_diff dl Hd _ _ _ _ A01 A10 B01 B10) ltac:(ring)).
  assert (S1 := CE _ _ _ (4 * (x * y)) (two_sum dl Hd _ _ _ _ A01 A10 B01 B10) ltac:(ring)).
  assert (S2 := CE _ _ _ (4 * (x * z)) (two_sum dl Hd _ _ _ _ A20 A02 B20 B02) ltac:(ring)).
  assert (S3 := CE _ _ _ (4 * (y * z)) (two_sum dl Hd _ _ _ _ A12 A21 B12 B21) ltac:(ring)).
  assert (BG : match n with O => 248 / 1000 <= w * w | S O => 248 / 1000 <= x * x | S (S O) => 248 / 1000 <= y * y | _ => 248 / 1000 <= z * z end).
  { clear - N CX CY CZ CW GX GY GZ GW Hd U En. destruct CX as [_ CX], CY as [_ CY], CZ as [_ CZ], CW as [_ CW]. destruct n as [|[|[|n]]]; subst f; lra. }
  destruct n as [|[|[|n]]]; subst f.
  - destruct (one_branch dl _ _ _ _ w x y z Hd ltac:(lra) ltac:(assumption) CW D1 D2 D3) as (s & Hs & K0 & K1 & K2 & K3).
    exists s. split; [exact Hs|]. cbn [lq qx qy qz qw]. repeat (apply Forall2_cons; [assumption|]). apply Forall2_nil.
  - destruct (one_branch dl _ _ _ _ x y z w Hd ltac:(lra) ltac:(assumption) CX S1 S2 (CE _ _ _ (4 * (x * w)) D1 ltac:(ring))) as (s & Hs & K0 & K1 & K2 & K3).
    exists s. split; [exact Hs|]. cbn [lq qx qy qz qw]. repeat (apply Forall2_cons; [assumption|]). apply Forall2_nil.
  - destruct (one_branch dl _ _ _ _ y x z w Hd ltac:(lra) ltac:(assumption) CY (CE _ _ _ (4 * (y * x)) S1 ltac:(ring)) S3 (CE _ _ _ (4 * (y * w)) D2 ltac:(ring))) as (s & Hs & K0 & K1 & K2 & K3).
    exists s. split; [exact Hs|]. cbn [lq qx qy qz qw]. repeat (apply Forall2_cons; [assumption|]). apply Forall2_nil.
  - destruct (one_branch dl _ _ _ _ z x y w Hd ltac:(lra) ltac:(assumption) CZ (CE _ _ _ (4 * (z * x)) S2 ltac:(ring)) (CE _ _ _ (4 * (z * y)) S3 ltac:(ring)) (CE _ _ _ (4 * (z * w)) D3 ltac:(ring))) as (s & Hs & K0 & K1 & K2 & K3).
    exists s. split; [exact Hs|]. cbn [lq qx qy qz qw]. repeat (apply Forall2_cons; [assumption|]). apply Forall2_nil.
Qed.

Lemma all_close_iff e c r : all_close e c r <-> Forall2 (close e) c r.
Proof.
  unfold all_close. split; intros H; (induction H as [|a b l m [F K] H IH]; [constructor|]); constructor; trivial; (split; [exact F|]); [now apply Rabs_le_inv|now apply Rabs_le].
Qed.
(** [quat_cast] of a matrix within dl of the rotation matrix of a unit quaternion is within 3 dl + 16*2^-24 of that quaternion or its negation, whichever of the four branches is taken. *)
Lemma C85_quat_cast_pf : forall (L : Libm) (p : quat R) dl, unit_quat p -> 0 <= dl <= / 1000 ->
  (forall m, all_close dl (lm3 m) (rotation_entries (-1) (qx p) (qy p) (qz p) (qw p)) ->
    all_close_sign (3 * dl + 16 * ulp_half) (lq (quat_cast3 (F32 L) m)) (lq p)) /\
  (forall m, all_close dl (firstn 3 (l4 (m4c0 m)) ++ firstn 3 (l4 (m4c1 m)) ++ firstn 3 (l4 (m4c2 m))) (rotation_entries (-1) (qx p) (qy p) (qz p) (qw p)) ->
    all_close_sign (3 * dl + 16 * ulp_half) (lq (quat_cast4 (F32 L) m)) (lq p)).
Proof.
  intros L p dl U Hd. assert (A : forall m, all_close dl (lm3 m) (rotation_entries (-1) (qx p) (qy p) (qz p) (qw p)) ->
    all_close_sign (3 * dl + 16 * ulp_half) (lq (quat_cast3 (F32 L) m)) (lq p)).
  { intros m H. apply all_close_iff in H. apply norm1_ip in U. destruct p as [x y z w]. cbn in U, H.
    destruct (cast_close L m x y z w dl Hd ltac:(lra) H) as (s & Hs & K). exists s. split; [exact Hs|]. apply all_close_iff. exact K. }
  split; [exact A|]. intros [[a00 a01 a02 a03] [a10 a11 a12 a13] [a20 a21 a22 a23] c3] H. now apply A.
Qed.

Lemma gam4_bound : gam 4 <= 401/100 * u.
Proof. unfold gam. pose proof u_val. change (INR 4) with (1 + 1 + 1 + 1). apply (Rmult_le_reg_r (1 - (1 + 1 + 1 + 1) * u)); [lra|]. unfold Rdiv. rewrite Rmult_assoc, Rinv_l by lra. nra. Qed.
Lemma tiny_u : 0 < tiny <= u / 1000.
Proof.
  change tiny with (bpow radix2 (-149)). rewrite <- u32_u. unfold u32. split; [apply bpow_gt_0|]. change (-149)%Z with (-24 + -125)%Z. rewrite bpow_plus.
  pose proof (bpow_gt_0 radix2 (-24)). assert (bpow radix2 (-125) <= bpow radix2 (-10)) by (apply bpow_le; lia). change (bpow radix2 (-10)) with (/ 1024) in *. nra.
Qed.
Lemma near_close (c : f32) r m : finite c -> near 4 (5 * tiny) c r m -> 0 <= m <= 301/100 -> close (121/10 * u) c r.
Proof.
  intros F N M. split; [exact F|]. unfold near in N. pose proof gam4_bound as G. pose proof u_val as U. pose proof tiny_u as T.
  assert (gam 4 * m <= 401/100 * u * (301/100)). { apply Rmult_le_compat; try lra. apply gam_nonneg. lia. }
  apply Rabs_le_inv in N. lra.
Qed.
Lemma scaled_part k S T h : 0 <= S -> - S <= T <= S -> - h <= k * S <= h -> - h <= k * T <= h.
Proof. intros HS HT HK. destruct (Rle_or_lt 0 k); split; nra. Qed.
(** Casting to a matrix and back returns the quaternion or its negation, up to 56*2^-24 and 7 times the deviation of its squared length from 1. *)
Lemma C85_roundtrip_pf : forall (L : Libm) (q : quat f32) h, all_finite (lq q) -> Rabs (ip (vals (lq q)) (vals (lq q)) - 1) <= h -> h <= / 4000 ->
  all_close_sign (7 * h + 56 * ulp_half) (lq (quat_cast3 (F32 L) (mat3_cast (F32 L) q))) (vals (lq q)).
Proof.
  intros L q h F Hh Bh. pose proof u_val as U. pose proof (Rabs_pos (ip (vals (lq q)) (vals (lq q)) - 1)) as P0.
  pose proof (C65_mat3_cast_pf L q) as NM. assert (BQ : bounded_by 2 (lq q)).
  { destruct q as [x y z w]. cbn in Hh. apply Rabs_le_inv in Hh. unfold bounded_by. cbv [lq qx qy qz qw].
    repeat (apply Forall_cons; [apply Rabs_le; nra|]). apply Forall_nil. }
  assert (FM : all_finite (lm3 (mat3_cast (F32 L) q))).
  { destruct (C71_quaternions_pf L) as (_ & _ & A). apply (A q 2 ltac:(lra) F BQ). apply Rlt_le_trans with (IZR (2 ^ 5)); [cbn; lra|apply IZR_le]. now apply Z.pow_le_mono_r. }
  specialize (NM FM). destruct q as [fx fy fz fw]. cbn [qx qy qz qw] in NM. set (M := mat3_cast (F32 L) (Quat fx fy fz fw)) in *. clearbody M.
  cbn in Hh. set (x := b2r fx) in *. set (y := b2r fy) in *. set (z := b2r fz) in *. set (w := b2r fw) in *.
  set (S := x * x + y * y + z * z + w * w). replace (x * x + (y * y + (z * z + (w * w + 0))) - 1) with (S - 1) in Hh by (unfold S; ring). apply Rabs_le_inv in Hh.
  set (N := sqrt S). assert (SN : N * N = S) by (apply sqrt_sqrt; lra). assert (PN : 0 < N) by (apply sqrt_lt_R0; lra).
  assert (N1 : - h <= N - 1 <= h) by (split; nra).
  set (i := / N). assert (IN : i * N = 1) by (unfold i; field; lra).
  assert (IS : (i * i - 1) * S = 1 - S) by (rewrite <- SN; replace ((i * i - 1) * (N * N)) with ((i * N) * (i * N) - N * N) by ring; rewrite IN; ring).
  assert (KS : - h <= (i * i - 1) * S <= h) by lra.
  assert (PS : 0 <= S) by lra.
  assert (CP : forall T, - S <= T <= S -> - h <= (i * i - 1) * T <= h) by (intros T HT; now apply (scaled_part _ S)).
  assert (UP : unit_quat (Quat (i * x) (i * y) (i * z) (i * w))).
  { apply norm1_ip. cbn. transitivity ((i * i) * S); [unfold S; ring|]. rewrite <- SN. replace (i * i * (N * N)) with ((i * N) * (i * N)) by ring. rewrite IN. ring. }
  destruct M as [[a00 a01 a02] [a10 a11 a12] [a20 a21 a22]]. unfold rotation_entries in NM. cbn [lm3 l3 concat app m3c0 m3c1 m3c2 x3 y3 z3 nears] in NM, FM.
  destruct NM as (A00 & A01 & A02 & A10 & A11 & A12 & A20 & A21 & A22 & _).
  unfold all_finite in FM. repeat match type of FM with Forall _ (_ :: _) => let K := fresh "F0" in apply Forall_cons_iff in FM as [K FM] end.
  pose proof (Rle_0_sqr x) as Qx. pose proof (Rle_0_sqr y) as Qy. pose proof (Rle_0_sqr z) as Qz. pose proof (Rle_0_sqr w) as Qw. unfold Rsqr in *.
  assert (AB : forall a b, Rabs a * Rabs b <= (a * a + b * b) / 2 /\ 0 <= Rabs a * Rabs b).
  { intros a b. pose proof (Rabs_pos a). pose proof (Rabs_pos b). assert (a * a = Rabs a * Rabs a) by (rewrite <- Rabs_mult, Rabs_pos_eq; [reflexivity|apply Rle_0_sqr]). assert (b * b = Rabs b * Rabs b) by (rewrite <- Rabs_mult, Rabs_pos_eq; [reflexivity|apply Rle_0_sqr]). pose proof (Rle_0_sqr (Rabs a - Rabs b)). unfold Rsqr in *. split; [lra|now apply Rmult_le_pos]. }
  assert (DG : forall a b, 0 <= a * a -> 0 <= b * b -> a * a + b * b <= S -> 0 <= 1 + 1 * (2 * (Rabs a * Rabs a + Rabs b * Rabs b)) <= 301/100).
  { intros a b Ha Hb Hab. replace (Rabs a * Rabs a) with (a * a) by (rewrite <- Rabs_mult, Rabs_pos_eq; lra). replace (Rabs b * Rabs b) with (b * b) by (rewrite <- Rabs_mult, Rabs_pos_eq; lra). lra. }
  assert (SS : S = x * x + y * y + z * z + w * w) by reflexivity. clearbody S.
  pose proof (AB x y). pose proof (AB w z). pose proof (AB x z). pose proof (AB w y). pose proof (AB y z). pose proof (AB w x).
  apply near_close in A00; [|assumption|apply DG; lra]. apply near_close in A11; [|assumption|apply DG; lra]. apply near_close in A22; [|assumption|apply DG; lra].
  apply near_close in A01; [|assumption|lra]. apply near_close in A02; [|assumption|lra]. apply near_close in A10; [|assumption|lra].
  apply near_close in A12; [|assumption|lra]. apply near_close in A20; [|assumption|lra]. apply near_close in A21; [|assumption|lra].
  assert (OT : forall a b, - (a * a + b * b) <= 2 * (a * b) <= a * a + b * b). { intros a b. pose proof (Rle_0_sqr (a - b)). pose proof (Rle_0_sqr (a + b)). unfold Rsqr in *. lra. }
  pose proof (OT x y). pose proof (OT w z). pose proof (OT x z). pose proof (OT w y). pose proof (OT y z). pose proof (OT w x).
  assert (W : forall (c : f32) r T r', close (121/10 * u) c r -> - S <= T <= S -> r' = r + 2 * ((i * i - 1) * T) -> close (2 * h + 121/10 * u) c r').
  { intros c r T r' [Fc Kc] HT ->. split; [exact Fc|]. pose proof (CP T HT). lra. }
  destruct (C85_quat_cast_pf L (Quat (i * x) (i * y) (i * z) (i * w)) (2 * h + 121/10 * u) UP ltac:(lra)) as [K _].
  destruct (K (M3 (V3 a00 a01 a02) (V3 a10 a11 a12) (V3 a20 a21 a22))) as (s & Hs & R).
  { apply all_close_iff. unfold rotation_entries. cbn [lm3 l3 concat app m3c0 m3c1 m3c2 x3 y3 z3 qx qy qz qw].
    apply Forall2_cons; [apply (W _ _ (- (y * y + z * z)) _ A00); [lra|ring]|]. apply Forall2_cons; [apply (W _ _ (x * y + w * z) _ A01); [lra|ring]|].
    apply Forall2_cons; [apply (W _ _ (x * z - w * y) _ A02); [lra|ring]|]. apply Forall2_cons; [apply (W _ _ (x * y - w * z) _ A10); [lra|ring]|].
    apply Forall2_cons; [apply (W _ _ (- (x * x + z * z)) _ A11); [lra|ring]|]. apply Forall2_cons; [apply (W _ _ (y * z + w * x) _ A12); [lra|ring]|].
    apply Forall2_cons; [apply (W _ _ (x * z + w * y) _ A20); [lra|ring]|]. apply Forall2_cons; [apply (W _ _ (y * z - w * x) _ A21); [lra|ring]|].
    apply Forall2_cons; [apply (W _ _ (- (x * x + y * y)) _ A22); [lra|ring]|]. apply Forall2_nil. }
  exists s. split; [exact Hs|]. apply all_close_iff in R. apply all_close_iff. destruct (quat_cast3 (F32 L) _) as [c0 c1 c2 c3]. cbn [lq qx qy qz qw map] in R. cbn [lq qx qy qz qw map vals].
  fold x y z w.
  assert (V : forall (c : f32) r, r * r <= S -> close (3 * (2 * h + 121/10 * u) + 16 * u) c (s * (i * r)) -> close (7 * h + 56 * u) c (s * r)).
  { intros c r Hr [Fc Kc]. split; [exact Fc|]. assert (HN : r * r <= N * N) by lra. assert (BR : - N <= r <= N) by (clear - HN PN; split; nra). assert (KN : - h <= (i - 1) * N <= h) by (replace ((i - 1) * N) with (1 - N) by (rewrite Rmult_minus_distr_r, IN; ring); lra).
    pose proof (scaled_part (i - 1) N r h ltac:(lra) BR KN) as KR. destruct Hs as [-> | ->]; lra. }
  apply Forall2_cons_iff in R as [R0 R]. apply Forall2_cons_iff in R as [R1 R]. apply Forall2_cons_iff in R as [R2 R]. apply Forall2_cons_iff in R as [R3 R].
  repeat (apply Forall2_cons; [apply V; [lra|assumption]|]). apply Forall2_nil.
Qed.
Lemma all_close_weak e e' c r : e <= e' -> all_close e c r -> all_close e' c r.
Proof. intros H R. induction R as [|a b l m [Fa Ka] R IH]; constructor; [split; [exact Fa|lra]|exact IH]. Qed.
(** In particular for the result of normalize. *)
Lemma C85_normalized_pf : forall (L : Libm) (q : quat f32), all_finite (lq q) -> / IZR (2 ^ 48) <= norm (vals (lq q)) <= IZR (2 ^ 62) ->
  let n := normalize_q (F32 L) q in all_close_sign (192 * ulp_half) (lq (quat_cast3 (F32 L) (mat3_cast (F32 L) n))) (vals (lq n)).
Proof.
  intros L q F B n. destruct (C72_normalize_pf L) as (_ & _ & _ & A). destruct (A q F B) as (Fn & _ & Hn). fold n in Fn, Hn. pose proof u_val as U.
  change (INR 4) with (1 + 1 + 1 + 1) in Hn. change (Rabs (norm (vals (lq n)) - 1) <= ((1 + 1 + 1 + 1) / 2 + 7) * u) in Hn. apply Rabs_le_inv in Hn.
  assert (P : 0 <= ip (vals (lq n)) (vals (lq n))). { destruct n as [x y z w]. cbn. pose proof (Rle_0_sqr (b2r x)). pose proof (Rle_0_sqr (b2r y)). pose proof (Rle_0_sqr (b2r z)). pose proof (Rle_0_sqr (b2r w)). unfold Rsqr in *. lra. }
  pose proof (sqrt_sqrt _ P) as E. fold (norm (vals (lq n))) in E. set (N := norm (vals (lq n))) in *.
  destruct (C85_roundtrip_pf L n (19 * u) Fn) as (s & Hs & R); [match goal with |- Rabs (?I - 1) <= _ => replace I with (N * N) by exact E end; apply Rabs_le; replace (N * N - 1) with ((N - 1) * (N + 1)) by ring; replace (19 * u) with (9 * u * (19 / 9)) by field; apply prod_bound; lra|lra|].
  exists s. split; [exact Hs|]. revert R. apply all_close_weak. lra.
Qed.
(*PROPS
(** the third turn about (1, 1, 1), where all four branches are equally good, and a turn about the x axis with rounded components *)
Example C85_case : forall L : Libm,
  (unit_quat (Quat (/ 2) (/ 2) (/ 2) (/ 2)) /\
   all_close 0 (lm3 (M3 (V3 (f32_lit 0 0) (f32_lit 1 0) (f32_lit 0 0)) (V3 (f32_lit 0 0) (f32_lit 0 0) (f32_lit 1 0)) (V3 (f32_lit 1 0) (f32_lit 0 0) (f32_lit 0 0)))) (rotation_entries (-1) (/ 2) (/ 2) (/ 2) (/ 2))) /\
  let q := Quat (f32_lit 6 (-1)) (f32_lit 0 0) (f32_lit 0 0) (f32_lit 8 (-1)) in
  all_finite (lq q) /\ Rabs (ip (vals (lq q)) (vals (lq q)) - 1) <= / 4194304 /\ / IZR (2 ^ 48) <= norm (vals (lq q)) <= IZR (2 ^ 62).
Proof.
  intros L. split; [split|].
  - apply norm1_ip. cbn. lra.
  - unfold rotation_entries, all_close. cbn [lm3 l3 concat app m3c0 m3c1 m3c2 x3 y3 z3].
    assert (Z0 : b2r (f32_lit 0 0) = 0) by reflexivity.
    repeat (apply Forall2_cons; [split; [reflexivity|]; rewrite ?b2r_lit1, ?Z0; apply Rabs_le; lra|]). apply Forall2_nil.
  - intros q. assert (E6 : b2r (f32_lit 6 (-1)) = 10066330 / 16777216) by (unfold f32_lit; vm_compute; lra). assert (E8 : b2r (f32_lit 8 (-1)) = 13421773 / 16777216) by (unfold f32_lit; vm_compute; lra).
    assert (I : ip (vals (lq q)) (vals (lq q)) = 10066330 / 16777216 * (10066330 / 16777216) + 13421773 / 16777216 * (13421773 / 16777216)).
    { unfold q. cbn [lq qx qy qz qw vals map ip zip fold_right]. rewrite E6, E8. change (b2r (f32_lit 0 0)) with 0. ring. }
    split; [repeat (apply Forall_cons; [reflexivity|]); apply Forall_nil|]. split; [rewrite I; apply Rabs_le; lra|].
    unfold norm. rewrite I. match goal with |- context [sqrt ?t] => assert (H : / 4 <= t <= 4) by lra; set (r := t) in * end.
    assert (G1 : / 2 <= sqrt r) by (replace (/ 2) with (sqrt (/ 4)); [apply sqrt_le_1_alt; lra|replace (/ 4) with (/ 2 * / 2) by field; apply sqrt_square; lra]).
    assert (G2 : sqrt r <= 2) by (replace 2 with (sqrt 4); [apply sqrt_le_1_alt; lra|replace 4 with (2 * 2) by ring; apply sqrt_square; lra]).
    split; [apply Rle_trans with (/ 2); [apply Rinv_le_contravar; [lra|apply IZR_le; now apply (Z.pow_le_mono_r 2 1 48)]|exact G1]|apply Rle_trans with 2; [exact G2|apply IZR_le; now apply (Z.pow_le_mono_r 2 1 62)]].
Qed.
PROPS*)
