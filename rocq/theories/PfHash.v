(** * Proofs: hashing *)
From Coq Require Import ZArith Bool List Lia Permutation.
From Flocq Require Import Core IEEE754.BinarySingleNaN IEEE754.Binary IEEE754.Bits.
From Verif Require Import Scalar IEEE32 FloatBasics Outcome Types Spec ModelVec ModelIVec ModelBVec
  ModelQuat ModelMat ModelHash.
Import ListNotations.
Local Open Scope Z_scope.
(*HEADER END*)

Ltac ands := repeat match goal with |- _ /\ _ => split end.

(** ** 64-bit arithmetic *)
Definition mult : Z := 1273103906433186827.
Definition mult_inv : Z := 3248545791705542563.

Lemma mult_cancel n a b : 0 <= n <= 64 -> (a * mult) mod 2 ^ n = (b * mult) mod 2 ^ n -> a mod 2 ^ n = b mod 2 ^ n.
Proof.
  intros Hn H.
  assert (Hp : 0 < 2 ^ n) by (apply Z.pow_pos_nonneg; lia).
  assert (Hinv : forall c, (c * mult * mult_inv) mod 2 ^ n = c mod 2 ^ n).
  { intros c.
    assert (E : mult * mult_inv = 1 + (mult * mult_inv / 2 ^ 64) * 2 ^ (64 - n) * 2 ^ n).
    { rewrite <- Z.mul_assoc, <- Z.pow_add_r by lia. replace (64 - n + n) with 64 by lia. vm_compute. reflexivity. }
    rewrite <- Z.mul_assoc, E, Z.mul_add_distr_l, Z.mul_1_r, !Z.mul_assoc.
    apply Z.mod_add. lia. }
  rewrite <- (Hinv a), <- (Hinv b).
  rewrite <- (Z.mul_mod_idemp_l (a * mult)) by lia.
  rewrite <- (Z.mul_mod_idemp_l (b * mult)) by lia. congruence.
Qed.

Lemma mod_mod_pow2 a n m : 0 <= n <= m -> (a mod 2 ^ m) mod 2 ^ n = a mod 2 ^ n.
Proof.
  intros H. symmetry. apply Znumtheory.Zmod_div_mod; try (apply Z.pow_pos_nonneg; lia).
  exists (2 ^ (m - n)). rewrite <- Z.pow_add_r by lia. f_equal. lia.
Qed.

Lemma hash_unsigned_mod v n : 0 <= n <= 64 -> hash_unsigned v mod 2 ^ n = (v * mult) mod 2 ^ n.
Proof. intros H. unfold hash_unsigned, u64. now apply mod_mod_pow2. Qed.

Lemma hash_unsigned_inj_mod n a b : 32 <= n <= 64 -> is_u32 a -> is_u32 b ->
  hash_unsigned a mod 2 ^ n = hash_unsigned b mod 2 ^ n -> a = b.
Proof.
  unfold is_u32. intros Hn Ha Hb H. rewrite !hash_unsigned_mod in H by lia.
  apply mult_cancel in H; [|lia].
  assert (2 ^ 32 <= 2 ^ n) by (apply Z.pow_le_mono_r; lia).
  rewrite !Z.mod_small in H by lia. assumption.
Qed.

Lemma hash_unsigned_range v : 0 <= hash_unsigned v < 2 ^ 64.
Proof. unfold hash_unsigned, u64. apply Z.mod_pos_bound. lia. Qed.

Lemma u64_shl_bits h k i : 0 <= k -> 0 <= i -> Z.testbit (u64_shl h k) i = (i <? 64) && Z.testbit h (i - k).
Proof.
  intros Hk Hi. unfold u64_shl, u64.
  destruct (Z.ltb_spec i 64).
  - rewrite Z.mod_pow2_bits_low by lia. rewrite Z.mul_pow2_bits by lia. reflexivity.
  - rewrite Z.mod_pow2_bits_high by lia. reflexivity.
Qed.

Lemma lor_shl_low x h k : 0 <= k -> Z.lor (u64_shl x k) h mod 2 ^ k = h mod 2 ^ k.
Proof.
  intros Hk. apply Z.bits_inj'. intros i Hi.
  destruct (Z.ltb_spec i k).
  - rewrite !Z.mod_pow2_bits_low by lia. rewrite Z.lor_spec, u64_shl_bits by lia.
    rewrite (Z.testbit_neg_r x) by lia. now rewrite andb_false_r.
  - now rewrite !Z.mod_pow2_bits_high by lia.
Qed.

Lemma shl16_inj h h' : u64_shl h 16 = u64_shl h' 16 -> h mod 2 ^ 48 = h' mod 2 ^ 48.
Proof.
  intros H. apply Z.bits_inj'. intros i Hi. destruct (Z.ltb_spec i 48).
  - rewrite !Z.mod_pow2_bits_low by lia.
    assert (E : Z.testbit (u64_shl h 16) (i + 16) = Z.testbit (u64_shl h' 16) (i + 16)) by congruence.
    rewrite !u64_shl_bits in E by lia. replace (i + 16 - 16) with i in E by lia.
    destruct (Z.ltb_spec (i + 16) 64); [|lia]. exact E.
  - now rewrite !Z.mod_pow2_bits_high by lia.
Qed.

Lemma lxor_inj_l a b c : Z.lxor a c = Z.lxor b c -> a = b.
Proof.
  intros H. rewrite <- (Z.lxor_0_r a), <- (Z.lxor_0_r b), <- (Z.lxor_nilpotent c), <- !Z.lxor_assoc. congruence.
Qed.
Lemma lxor_inj_r a b c : Z.lxor c a = Z.lxor c b -> a = b.
Proof. rewrite !(Z.lxor_comm c). apply lxor_inj_l. Qed.

(** ** C12 *)
(** C12: values of the exact types that compare equal hash equally. *)
Lemma C12_equal_keys_pf :
  (forall u v : vec2 Z, ivec2_eq u v = true -> hash_ivec2 u = hash_ivec2 v) /\
  (forall u v : vec3 Z, ivec3_eq u v = true -> hash_ivec3 u = hash_ivec3 v) /\
  (forall u v : vec4 Z, ivec4_eq u v = true -> hash_ivec4 u = hash_ivec4 v) /\
  (forall u v : vec2 bool, bvec2_eq u v = true -> hash_bvec2 u = hash_bvec2 v) /\
  (forall u v : vec3 bool, bvec3_eq u v = true -> hash_bvec3 u = hash_bvec3 v) /\
  (forall u v : vec4 bool, bvec4_eq u v = true -> hash_bvec4 u = hash_bvec4 v) /\
  (forall a b : Z, a = b -> hash_int a = hash_int b /\ hash_unsigned a = hash_unsigned b) /\
  (forall a b : bool, a = b -> hash_bool a = hash_bool b).
Proof.
  repeat split; intros; subst; try reflexivity.
  all: match goal with u : _, v : _, H : _ |- _ => destruct u, v; cbv [ivec2_eq ivec3_eq ivec4_eq bvec2_eq bvec3_eq bvec4_eq] in H end;
    cbn in H; rewrite ?andb_true_iff, ?Z.eqb_eq, ?eqb_true_iff in H; intuition congruence.
Qed.

(** C12: every hash is a 64-bit word, so no two calls can disagree by an unnoticed
    truncation of the returned size_t. *)
Lemma lxor_u64 a b : 0 <= a < 2 ^ 64 -> 0 <= b < 2 ^ 64 -> 0 <= Z.lxor a b < 2 ^ 64.
Proof.
  intros Ha Hb. assert (0 <= Z.lxor a b) by (apply Z.lxor_nonneg; lia). split; [assumption|].
  replace (Z.lxor a b) with (Z.lxor a b mod 2 ^ 64).
  { apply Z.mod_pos_bound; lia. }
  apply Z.bits_inj'. intros i Hi. destruct (Z.ltb_spec i 64).
  - now rewrite Z.mod_pow2_bits_low by lia.
  - rewrite Z.mod_pow2_bits_high by lia. rewrite Z.lxor_spec.
    rewrite <- (Z.mod_small a (2 ^ 64)), <- (Z.mod_small b (2 ^ 64)) by lia.
    now rewrite !Z.mod_pow2_bits_high by lia.
Qed.
Lemma lor_u64 a b : 0 <= a < 2 ^ 64 -> 0 <= b < 2 ^ 64 -> 0 <= Z.lor a b < 2 ^ 64.
Proof.
  intros Ha Hb. assert (0 <= Z.lor a b) by (apply Z.lor_nonneg; lia). split; [assumption|].
  replace (Z.lor a b) with (Z.lor a b mod 2 ^ 64).
  { apply Z.mod_pos_bound; lia. }
  apply Z.bits_inj'. intros i Hi. destruct (Z.ltb_spec i 64).
  - now rewrite Z.mod_pow2_bits_low by lia.
  - rewrite Z.mod_pow2_bits_high by lia. rewrite Z.lor_spec.
    rewrite <- (Z.mod_small a (2 ^ 64)), <- (Z.mod_small b (2 ^ 64)) by lia.
    now rewrite !Z.mod_pow2_bits_high by lia.
Qed.
Lemma u64_range z : 0 <= u64 z < 2 ^ 64.
Proof. apply Z.mod_pos_bound. lia. Qed.
Lemma hash_bool_range b : 0 <= hash_bool b < 2 ^ 64.
Proof. destruct b; vm_compute; split; congruence. Qed.
Lemma C12_hash_is_word_pf : forall (a : Z) (b : bool) (v2 : vec2 Z) (v3 : vec3 Z) (v4 : vec4 Z) (q : quat Z)
    (m2 : mat2 Z) (m3 : mat3 Z) (m4 : mat4 Z) (b2 : vec2 bool) (b3 : vec3 bool) (b4 : vec4 bool),
  Forall (fun h => 0 <= h < 2 ^ 64)
    [hash_unsigned a; hash_int a; hash_bool b; hash_float a; hash_vec2 v2; hash_vec3 v3; hash_vec4 v4;
     hash_quat q; hash_mat2 m2; hash_mat3 m3; hash_mat4 m4; hash_bvec2 b2; hash_bvec3 b3; hash_bvec4 b4;
     hash_ivec2 v2; hash_ivec3 v3; hash_ivec4 v4].
Proof.
  intros.
  repeat (constructor; [
    cbv [hash_mat2 hash_mat3 hash_mat4 hash_vec2 hash_vec3 hash_vec4 hash_quat hash_bvec2 hash_bvec3 hash_bvec4
         hash_ivec2 hash_ivec3 hash_ivec4 hash_float float_hash hash_unsigned hash_int u64_shl]; cbv zeta;
    repeat first [apply lxor_u64 | apply lor_u64 | apply u64_range | apply hash_bool_range] |]).
  constructor.
Qed.

(** ** C14 *)
Lemma hash_int_inj a b : fits a -> fits b -> hash_int a = hash_int b -> a = b.
Proof.
  unfold fits. intros Ha Hb H. unfold hash_int, u64 in H.
  rewrite !Z.mul_mod_idemp_l in H by lia.
  apply (mult_cancel 64) in H; [|lia].
  assert (D : (a - b) mod 2 ^ 64 = 0).
  { rewrite Zminus_mod, H, Z.sub_diag. reflexivity. }
  apply Z.mod_divide in D; [|lia]. destruct D as [k D].
  change (2 ^ 64) with 18446744073709551616 in D. change (2 ^ 31) with 2147483648 in *. nia.
Qed.

(** C14: the scalar hashes never collide. *)
Lemma C14_scalar_injective_pf :
  (forall a b, fits a -> fits b -> hash_int a = hash_int b -> a = b) /\
  (forall a b, is_u32 a -> is_u32 b -> hash_unsigned a = hash_unsigned b -> a = b) /\
  (forall a b, is_u32 a -> is_u32 b -> hash_float a = hash_float b -> a = b) /\
  (forall a b, hash_bool a = hash_bool b -> a = b).
Proof.
  split; [apply hash_int_inj|]. split; [|split].
  - intros a b Ha Hb H. apply (hash_unsigned_inj_mod 64); trivial; [lia|congruence].
  - intros a b Ha Hb H. unfold hash_float, float_hash in H. cbv zeta in H.
    apply (hash_unsigned_inj_mod 32); trivial; [lia|].
    rewrite <- (lor_shl_low (u64_not (hash_unsigned a)) (hash_unsigned a) 32) by lia.
    rewrite <- (lor_shl_low (u64_not (hash_unsigned b)) (hash_unsigned b) 32) by lia. congruence.
  - intros [] [] H; vm_compute in H; congruence.
Qed.

Lemma u64_not_bits h i : 0 <= h < 2 ^ 64 -> 0 <= i < 64 -> Z.testbit (u64_not h) i = negb (Z.testbit h i).
Proof.
  intros H I. unfold u64_not. replace (2 ^ 64 - 1 - h) with (Z.lnot h + 1 * 2 ^ 64) by (unfold Z.lnot; lia).
  rewrite <- (Z.mod_pow2_bits_low _ 64) by lia. rewrite Z_mod_plus_full, Z.mod_pow2_bits_low, Z.lnot_spec by lia. reflexivity.
Qed.
(** C14: bit by bit: the lower half of hash(float) is the lower half of the hash of its image, and the upper half holds the complement of the
    lower half, ored with the upper half of that hash; the vector hashes place the component hashes at bits 32, 0, 16 and 0. *)
Lemma C14_bits_pf : forall (x y z w i : Z), 0 <= i < 64 -> let h := fun v => Z.testbit (hash_unsigned v) in
  let pair := fun x y => (32 <=? i) && h x (i - 32) || h y i in
  Z.testbit (hash_float x) i = (32 <=? i) && negb (h x (i - 32)) || h x i /\
  Z.testbit (hash_vec2 (V2 x y)) i = pair x y /\
  Z.testbit (hash_vec3 (V3 x y z)) i = xorb (pair x y) ((16 <=? i) && h z (i - 16)) /\
  Z.testbit (hash_vec4 (V4 x y z w)) i = xorb (xorb (pair x y) ((16 <=? i) && h z (i - 16))) (h w i) /\
  Z.testbit (hash_quat (Quat x y z w)) i = xorb (xorb (pair x y) ((16 <=? i) && h z (i - 16))) (h w i).
Proof.
  intros x y z w i I h pair.
  assert (S : forall v k, 0 <= k -> Z.testbit (u64_shl v k) i = (k <=? i) && Z.testbit v (i - k)).
  { intros v k K. rewrite u64_shl_bits by lia. replace (i <? 64) with true by (symmetry; apply Z.ltb_lt; lia). cbn [andb]. destruct (Z.leb_spec k i); [reflexivity|]. apply Z.testbit_neg_r. lia. }
  assert (P : Z.testbit (Z.lor (u64_shl (hash_unsigned x) 32) (hash_unsigned y)) i = pair x y) by (rewrite Z.lor_spec, S by lia; reflexivity).
  split; [|split; [exact P|split; [|split]]].
  - unfold hash_float, float_hash. cbv zeta. rewrite Z.lor_spec, S by lia. unfold h. f_equal. destruct (Z.leb_spec 32 i); [|reflexivity]. cbn [andb]. apply u64_not_bits; [apply hash_unsigned_range|lia].
  - unfold hash_vec3, float_hash. cbn [x3 y3 z3]. cbv zeta. rewrite Z.lxor_spec, P, S by lia. reflexivity.
  - unfold hash_vec4, float_hash. cbn [x4 y4 z4 w4]. cbv zeta. rewrite !Z.lxor_spec, P, S by lia. reflexivity.
  - unfold hash_quat, float_hash. cbn [qx qy qz qw]. cbv zeta. rewrite !Z.lxor_spec, P, S by lia. reflexivity.
Qed.

(*PROPS
Example C14_ex : hash_float 0 <> hash_float (2 ^ 31) /\ hash_int (-1) <> hash_int 1.
Proof. split; vm_compute; intros H; discriminate H. Qed.

PROPS*)
(** ** C13: floats *)
Lemma bits_roundtrip z : is_u32 z -> bits_of_b32 (b32_of_bits z) = z.
Proof. intros H. apply (bits_of_binary_float_of_bits 23 8); exact H. Qed.

Lemma B2BSN_inj (x y : binary_float 24 128) : is_nan 24 128 x = false ->
  B2BSN 24 128 x = B2BSN 24 128 y -> x = y.
Proof.
  destruct x, y; cbn; intros Hn H; try discriminate Hn; try discriminate H; try congruence.
  injection H as -> -> ->. f_equal. apply Eqdep_dec.UIP_dec, bool_dec.
Qed.

Lemma b32_zero_bits z : is_u32 z -> iszero (f32_of_bits z) = true -> z = 0 \/ z = 2 ^ 31.
Proof.
  intros Hz H. rewrite <- (bits_roundtrip z Hz). unfold f32_of_bits in H.
  destruct (b32_of_bits z) as [s| | |]; try discriminate H.
  destruct s; [right|left]; reflexivity.
Qed.

(** two memory images of zeros of opposite sign *)
Definition opposite_zeros (a b : Z) : Prop := (a = 0 /\ b = 2 ^ 31) \/ (a = 2 ^ 31 /\ b = 0).

Lemma float_equal_bits a b : is_u32 a -> is_u32 b -> Beqb (f32_of_bits a) (f32_of_bits b) = true ->
  a = b \/ opposite_zeros a b.
Proof.
  intros Ha Hb H. apply Beqb_cases in H as [[Hn E]|[Za Zb]].
  - left. rewrite <- (bits_roundtrip a Ha), <- (bits_roundtrip b Hb). f_equal.
    apply B2BSN_inj; [|exact E]. unfold f32_of_bits in Hn. now rewrite is_nan_B2BSN in Hn.
  - apply b32_zero_bits in Za, Zb; trivial. unfold opposite_zeros. intuition congruence.
Qed.

Lemma zeros_equal : Beqb (f32_of_bits 0) (f32_of_bits (2 ^ 31)) = true.
Proof. vm_compute. reflexivity. Qed.
Lemma opposite_zeros_equal a b : opposite_zeros a b -> Beqb (f32_of_bits a) (f32_of_bits b) = true.
Proof. intros [[-> ->]|[-> ->]]; [|rewrite Beqb_sym]; exact zeros_equal. Qed.

(** C13: float keys that compare equal hash equally exactly when they are not zeros of
    opposite sign. *)
Lemma C13_float_pf : forall a b, is_u32 a -> is_u32 b -> Beqb (f32_of_bits a) (f32_of_bits b) = true ->
  (hash_float a = hash_float b <-> ~ opposite_zeros a b).
Proof.
  intros a b Ha Hb H. destruct (float_equal_bits a b Ha Hb H) as [->|Hz].
  - split; [|reflexivity]. intros _ [[E1 E2]|[E1 E2]]; rewrite E1 in E2; discriminate E2.
  - split; [|tauto]. intros E _. apply C14_scalar_injective_pf in E; trivial.
    subst. destruct Hz as [[E1 E2]|[E1 E2]]; rewrite E1 in E2; discriminate E2.
Qed.

(** Values of memory images, componentwise. *)
Definition val2 (v : vec2 Z) : vec2 f32 := V2 (f32_of_bits (x2 v)) (f32_of_bits (y2 v)).
Definition val3 (v : vec3 Z) : vec3 f32 := V3 (f32_of_bits (x3 v)) (f32_of_bits (y3 v)) (f32_of_bits (z3 v)).
Definition val4 (v : vec4 Z) : vec4 f32 :=
  V4 (f32_of_bits (x4 v)) (f32_of_bits (y4 v)) (f32_of_bits (z4 v)) (f32_of_bits (w4 v)).
Definition valq (v : quat Z) : quat f32 :=
  Quat (f32_of_bits (qx v)) (f32_of_bits (qy v)) (f32_of_bits (qz v)) (f32_of_bits (qw v)).
Definition valm2 (m : mat2 Z) : mat2 f32 := M2 (val2 (m2c0 m)) (val2 (m2c1 m)).
Definition valm3 (m : mat3 Z) : mat3 f32 := M3 (val3 (m3c0 m)) (val3 (m3c1 m)) (val3 (m3c2 m)).
Definition valm4 (m : mat4 Z) : mat4 f32 :=
  M4 (val4 (m4c0 m)) (val4 (m4c1 m)) (val4 (m4c2 m)) (val4 (m4c3 m)).

Definition images_ok (u v : list Z) : Prop := Forall2 (fun a b => is_u32 a /\ is_u32 b /\ ~ opposite_zeros a b) u v.

Lemma images_eq (u v : list Z) : images_ok u v ->
  Forall2 (fun a b => Beqb (f32_of_bits a) (f32_of_bits b) = true) u v -> u = v.
Proof.
  induction 1 as [|a b u v [Ha [Hb Hz]] H IH]; intros HE; [reflexivity|]. inversion_clear HE.
  f_equal; [|now apply IH]. destruct (float_equal_bits a b Ha Hb H0); tauto.
Qed.

Ltac by_images eqn :=
  intros L u v; intros;
  repeat match goal with
  | v : vec2 Z |- _ => destruct v | v : vec3 Z |- _ => destruct v | v : vec4 Z |- _ => destruct v
  | v : quat Z |- _ => destruct v | v : mat2 Z |- _ => destruct v | v : mat3 Z |- _ => destruct v
  | v : mat4 Z |- _ => destruct v end;
  match goal with H : images_ok _ _ |- _ =>
    apply images_eq in H;
    [ cbv in H; injection H; intros; subst; reflexivity
    | match goal with E : _ = true |- _ =>
        cbv [vec2_eq vec3_eq vec4_eq quat_eq mat2_eq mat3_eq mat4_eq val2 val3 val4 valq valm2 valm3 valm4
             col2 col3 col4 el2 el3 el4 at2 at3 at4] in E;
        cbn -[Beqb f32_of_bits] in E; rewrite ?andb_true_iff in E;
        cbn; repeat constructor; tauto end ] end.

(** C13: composite float keys that compare equal and pair no +0 with -0 hash equally. *)
Lemma C13_aggregates_pf : forall L : Libm,
  (forall u v, images_ok (l2 u) (l2 v) -> vec2_eq (F32 L) (val2 u) (val2 v) = true -> hash_vec2 u = hash_vec2 v) /\
  (forall u v, images_ok (l3 u) (l3 v) -> vec3_eq (F32 L) (val3 u) (val3 v) = true -> hash_vec3 u = hash_vec3 v) /\
  (forall u v, images_ok (l4 u) (l4 v) -> vec4_eq (F32 L) (val4 u) (val4 v) = true -> hash_vec4 u = hash_vec4 v) /\
  (forall u v, images_ok (lq u) (lq v) -> quat_eq (F32 L) (valq u) (valq v) = true -> hash_quat u = hash_quat v) /\
  (forall u v, images_ok (lm2 u) (lm2 v) -> mat2_eq (F32 L) (valm2 u) (valm2 v) = true -> hash_mat2 u = hash_mat2 v) /\
  (forall u v, images_ok (lm3 u) (lm3 v) -> mat3_eq (F32 L) (valm3 u) (valm3 v) = true -> hash_mat3 u = hash_mat3 v) /\
  (forall u v, images_ok (lm4 u) (lm4 v) -> mat4_eq (F32 L) (valm4 u) (valm4 v) = true -> hash_mat4 u = hash_mat4 v).
Proof.
  intros L.
  repeat apply conj; intros u v Hi HE;
  repeat match goal with
  | v : vec2 Z |- _ => destruct v | v : vec3 Z |- _ => destruct v | v : vec4 Z |- _ => destruct v
  | v : quat Z |- _ => destruct v | v : mat2 Z |- _ => destruct v | v : mat3 Z |- _ => destruct v
  | v : mat4 Z |- _ => destruct v end;
  (apply images_eq in Hi;
    [ cbv [l2 l3 l4 lq lm2 lm3 lm4 concat app Types.x2 Types.y2 Types.x3 Types.y3 Types.z3 Types.x4 Types.y4 Types.z4 Types.w4
           Types.qx Types.qy Types.qz Types.qw m2c0 m2c1 m3c0 m3c1 m3c2 m4c0 m4c1 m4c2 m4c3] in Hi;
      injection Hi; intros; subst; reflexivity
    | cbv [vec2_eq vec3_eq vec4_eq quat_eq mat2_eq mat3_eq mat4_eq val2 val3 val4 valq valm2 valm3 valm4
             col2 col3 col4 el2 el3 el4 at2 at3 at4] in HE;
      cbn -[Beqb f32_of_bits] in HE; rewrite ?andb_true_iff in HE;
      cbv [l2 l3 l4 lq lm2 lm3 lm4 concat app]; cbn -[Beqb f32_of_bits]; repeat constructor; tauto ]).
Qed.

(** C13 is violated on zeros of opposite sign: equal keys, different hashes. *)
Lemma C13_signed_zero_refuted_pf :
  exists a b, is_u32 a /\ is_u32 b /\ Beqb (f32_of_bits a) (f32_of_bits b) = true /\ hash_float a <> hash_float b.
Proof.
  exists 0, (2 ^ 31). unfold is_u32. split; [lia|]. split; [lia|]. split; [exact zeros_equal|].
  vm_compute. intros H; discriminate H.
Qed.

(** C13: so does every vec2, vec3, vec4 or quat pair that differs only in the sign of a
    zero y: the keys are equal and the hashes are not. *)
Lemma C13_signed_zero_y_pf : forall (L : Libm) (x z w : Z),
  is_u32 x -> is_u32 z -> is_u32 w ->
  let p := f32_of_bits in
  BinarySingleNaN.is_nan (p x) = false -> BinarySingleNaN.is_nan (p z) = false -> BinarySingleNaN.is_nan (p w) = false ->
  (vec2_eq (F32 L) (val2 (V2 x 0)) (val2 (V2 x (2 ^ 31))) = true /\ hash_vec2 (V2 x 0) <> hash_vec2 (V2 x (2 ^ 31))) /\
  (vec3_eq (F32 L) (val3 (V3 x 0 z)) (val3 (V3 x (2 ^ 31) z)) = true /\ hash_vec3 (V3 x 0 z) <> hash_vec3 (V3 x (2 ^ 31) z)) /\
  (vec4_eq (F32 L) (val4 (V4 x 0 z w)) (val4 (V4 x (2 ^ 31) z w)) = true /\ hash_vec4 (V4 x 0 z w) <> hash_vec4 (V4 x (2 ^ 31) z w)) /\
  (quat_eq (F32 L) (valq (Quat x 0 z w)) (valq (Quat x (2 ^ 31) z w)) = true /\ hash_quat (Quat x 0 z w) <> hash_quat (Quat x (2 ^ 31) z w)).
Proof.
  intros L x z w Hx Hz Hw p Nx Nz Nw.
  assert (HN : Z.lor (u64_shl (float_hash x) 32) (float_hash 0) <> Z.lor (u64_shl (float_hash x) 32) (float_hash (2 ^ 31))).
  { intros E.
    assert (0 = 2 ^ 31) as E'; [|discriminate E'].
    apply (hash_unsigned_inj_mod 32); [lia|unfold is_u32; lia|unfold is_u32; lia|].
    unfold float_hash in E.
    rewrite <- (lor_shl_low (hash_unsigned x) (hash_unsigned 0) 32) by lia.
    rewrite <- (lor_shl_low (hash_unsigned x) (hash_unsigned (2 ^ 31)) 32) by lia. congruence. }
  assert (Rx := Beqb_refl (p x)). assert (Rz := Beqb_refl (p z)). assert (Rw := Beqb_refl (p w)).
  rewrite ?Nx, ?Nz, ?Nw in *. cbn [negb] in *.
  assert (Z0 := zeros_equal).
  unfold p in *.
  ands.
  1: change (Beqb (f32_of_bits x) (f32_of_bits x) && Beqb (f32_of_bits 0) (f32_of_bits (2 ^ 31)) = true).
  3: change (Beqb (f32_of_bits x) (f32_of_bits x) && Beqb (f32_of_bits 0) (f32_of_bits (2 ^ 31)) && Beqb (f32_of_bits z) (f32_of_bits z) = true).
  5,7: change (Beqb (f32_of_bits x) (f32_of_bits x) && Beqb (f32_of_bits 0) (f32_of_bits (2 ^ 31)) && Beqb (f32_of_bits z) (f32_of_bits z) && Beqb (f32_of_bits w) (f32_of_bits w) = true).
  all: try (rewrite ?Rx, ?Rz, ?Rw, ?Z0; reflexivity).
  all: cbv [hash_vec2 hash_vec3 hash_vec4 hash_quat]; cbn [x2 y2 x3 y3 z3 x4 y4 z4 w4 qx qy qz qw]; intros E;
    repeat apply lxor_inj_l in E; exact (HN E).
Qed.

(** ** C15 *)
(** C15: changing only y, only z or only w changes the hash. *)
Lemma C15_last_components_injective_pf : forall x y y' z z' w w',
  is_u32 y -> is_u32 y' -> is_u32 z -> is_u32 z' -> is_u32 w -> is_u32 w' ->
  (hash_vec2 (V2 x y) = hash_vec2 (V2 x y') -> y = y') /\
  (hash_vec3 (V3 x y z) = hash_vec3 (V3 x y' z) -> y = y') /\
  (hash_vec3 (V3 x y z) = hash_vec3 (V3 x y z') -> z = z') /\
  (hash_vec4 (V4 x y z w) = hash_vec4 (V4 x y' z w) -> y = y') /\
  (hash_vec4 (V4 x y z w) = hash_vec4 (V4 x y z' w) -> z = z') /\
  (hash_vec4 (V4 x y z w) = hash_vec4 (V4 x y z w') -> w = w') /\
  (hash_quat (Quat x y z w) = hash_quat (Quat x y' z w) -> y = y') /\
  (hash_quat (Quat x y z w) = hash_quat (Quat x y z' w) -> z = z') /\
  (hash_quat (Quat x y z w) = hash_quat (Quat x y z w') -> w = w').
Proof.
  intros x y y' z z' w w' Hy Hy' Hz Hz' Hw Hw'.
  assert (PY : Z.lor (u64_shl (float_hash x) 32) (float_hash y) = Z.lor (u64_shl (float_hash x) 32) (float_hash y') -> y = y').
  { intros E. apply (hash_unsigned_inj_mod 32); trivial; [lia|]. unfold float_hash in E.
    rewrite <- (lor_shl_low (hash_unsigned x) (hash_unsigned y) 32) by lia.
    rewrite <- (lor_shl_low (hash_unsigned x) (hash_unsigned y') 32) by lia. congruence. }
  assert (PZ : u64_shl (float_hash z) 16 = u64_shl (float_hash z') 16 -> z = z').
  { intros E. apply shl16_inj in E. apply (hash_unsigned_inj_mod 48); trivial; lia. }
  assert (PW : float_hash w = float_hash w' -> w = w').
  { intros E. apply (hash_unsigned_inj_mod 64); trivial; [lia|]. unfold float_hash in E. congruence. }
  cbv [hash_vec2 hash_vec3 hash_vec4 hash_quat]; cbn [x2 y2 x3 y3 z3 x4 y4 z4 w4 qx qy qz qw].
  repeat split; intros E.
  - now apply PY.
  - apply lxor_inj_l in E. now apply PY.
  - apply lxor_inj_r in E. now apply PZ.
  - do 2 apply lxor_inj_l in E. now apply PY.
  - apply lxor_inj_l, lxor_inj_r in E. now apply PZ.
  - apply lxor_inj_r in E. now apply PW.
  - do 2 apply lxor_inj_l in E. now apply PY.
  - apply lxor_inj_l, lxor_inj_r in E. now apply PZ.
  - apply lxor_inj_r in E. now apply PW.
Qed.

(** C15: the first component is not protected: whenever the scalar hash of y has a bit
    set in its upper half, every x has an x' <> x that collides with it. *)
Lemma C15_vec2_collisions_pf : forall x y, is_u32 x -> is_u32 y -> 2 ^ 32 <= float_hash y ->
  exists x', is_u32 x' /\ x' <> x /\ hash_vec2 (V2 x' y) = hash_vec2 (V2 x y).
Proof.
  intros x y Hx Hy Hh.
  pose proof (hash_unsigned_range y) as Hr. fold (float_hash y) in Hr.
  set (k := Z.log2 (float_hash y)).
  assert (Hk : 32 <= k < 64).
  { unfold k. split.
    - apply Z.log2_le_pow2; lia.
    - apply Z.log2_lt_pow2; lia. }
  assert (Hbit : Z.testbit (float_hash y) k = true) by (apply Z.bit_log2; lia).
  set (t := Z.lxor (hash_unsigned x mod 2 ^ 32) (2 ^ (k - 32))).
  set (x' := (t * mult_inv) mod 2 ^ 32).
  assert (Hx' : is_u32 x') by (unfold x', is_u32; apply Z.mod_pos_bound; lia).
  assert (Et : t mod 2 ^ 32 = t).
  { apply Z.bits_inj'. intros i Hi. destruct (Z.ltb_spec i 32).
    - now rewrite Z.mod_pow2_bits_low by lia.
    - rewrite Z.mod_pow2_bits_high by lia. unfold t. rewrite Z.lxor_spec, Z.mod_pow2_bits_high by lia.
      rewrite Z.pow2_bits_eqb by lia. destruct (Z.eqb_spec (k - 32) i); [lia|reflexivity]. }
  assert (Eh : hash_unsigned x' mod 2 ^ 32 = t).
  { rewrite hash_unsigned_mod by lia. unfold x'. rewrite Z.mul_mod_idemp_l by lia.
    rewrite <- Z.mul_assoc, (Z.mul_comm mult_inv).
    assert (E : mult * mult_inv = 1 + (mult * mult_inv / 2 ^ 32) * 2 ^ 32) by (vm_compute; reflexivity).
    rewrite E, Z.mul_add_distr_l, Z.mul_1_r, Z.mul_assoc, Z.mod_add by lia. exact Et. }
  exists x'. split; [exact Hx'|]. split.
  - intros E. rewrite E in Eh.
    assert (B : Z.testbit t (k - 32) = negb (Z.testbit (hash_unsigned x mod 2 ^ 32) (k - 32))).
    { unfold t. rewrite Z.lxor_spec, Z.pow2_bits_true by lia. now rewrite xorb_true_r. }
    rewrite Eh in B. destruct (Z.testbit t (k - 32)); discriminate B.
  - cbv [hash_vec2]; cbn [x2 y2]. unfold float_hash at 1 3.
    apply Z.bits_inj'. intros i Hi. rewrite !Z.lor_spec, !u64_shl_bits by lia.
    destruct (Z.eqb_spec i k) as [->|Hne].
    + rewrite Hbit. now rewrite !orb_true_r.
    + f_equal. destruct (Z.ltb_spec i 64); [|reflexivity]. cbn [andb].
      destruct (Z.ltb_spec i 32); [rewrite !Z.testbit_neg_r by lia; reflexivity|].
      rewrite <- (Z.mod_pow2_bits_low (hash_unsigned x') 32) by lia.
      rewrite <- (Z.mod_pow2_bits_low (hash_unsigned x) 32) by lia.
      rewrite Eh. unfold t. rewrite Z.lxor_spec, Z.pow2_bits_eqb by lia.
      destruct (Z.eqb_spec (k - 32) (i - 32)); [lia|]. now rewrite xorb_false_r.
Qed.

(*PROPS
(** the hypothesis holds for 1.0f *)
Example C15_collisions_ex : 2 ^ 32 <= float_hash 1065353216.
Proof. vm_compute. discriminate. Qed.

PROPS*)
(** C15: hash(mat4) ignores the second and the third column. *)
Lemma C15_mat4_ignores_columns_pf : forall a b c d b' c' : vec4 Z,
  hash_mat4 (M4 a b c d) = hash_mat4 (M4 a b' c' d).
Proof.
  intros. cbv [hash_mat4 col4]; cbn [m4c0 m4c1 m4c2 m4c3].
  rewrite !(Z.lxor_assoc (hash_vec4 a)), !Z.lxor_nilpotent. reflexivity.
Qed.

Lemma fold_lxor_perm (l l' : list Z) : Permutation l l' -> fold_right Z.lxor 0 l = fold_right Z.lxor 0 l'.
Proof.
  induction 1; cbn; try congruence. rewrite <- !Z.lxor_assoc, (Z.lxor_comm y). reflexivity.
Qed.

(** C15: the hashes of int and bool vectors and of 2x2 and 3x3 matrices do not see the order
    of the components (columns). *)
Lemma C15_permutation_invariant_pf :
  (forall u v : vec2 Z, Permutation (l2 u) (l2 v) -> hash_ivec2 u = hash_ivec2 v) /\
  (forall u v : vec3 Z, Permutation (l3 u) (l3 v) -> hash_ivec3 u = hash_ivec3 v) /\
  (forall u v : vec4 Z, Permutation (l4 u) (l4 v) -> hash_ivec4 u = hash_ivec4 v) /\
  (forall u v : vec2 bool, Permutation (l2 u) (l2 v) -> hash_bvec2 u = hash_bvec2 v) /\
  (forall u v : vec3 bool, Permutation (l3 u) (l3 v) -> hash_bvec3 u = hash_bvec3 v) /\
  (forall u v : vec4 bool, Permutation (l4 u) (l4 v) -> hash_bvec4 u = hash_bvec4 v) /\
  (forall m n : mat2 Z, Permutation (cm2 m) (cm2 n) -> hash_mat2 m = hash_mat2 n) /\
  (forall m n : mat3 Z, Permutation (cm3 m) (cm3 n) -> hash_mat3 m = hash_mat3 n).
Proof.
  assert (E : forall a b c d, Z.lxor (Z.lxor (Z.lxor a b) c) d = fold_right Z.lxor 0 [a; b; c; d]).
  { intros; cbn. now rewrite Z.lxor_0_r, !Z.lxor_assoc. }
  assert (E3 : forall a b c, Z.lxor (Z.lxor a b) c = fold_right Z.lxor 0 [a; b; c]).
  { intros; cbn. now rewrite Z.lxor_0_r, !Z.lxor_assoc. }
  assert (E2 : forall a b, Z.lxor a b = fold_right Z.lxor 0 [a; b]).
  { intros; cbn. now rewrite Z.lxor_0_r. }
  repeat split; intros u v H.
  - unfold hash_ivec2. rewrite !E2. apply fold_lxor_perm, (Permutation_map hash_int H).
  - unfold hash_ivec3. rewrite !E3. apply fold_lxor_perm, (Permutation_map hash_int H).
  - unfold hash_ivec4. rewrite !E. apply fold_lxor_perm, (Permutation_map hash_int H).
  - unfold hash_bvec2. rewrite !E2. apply fold_lxor_perm, (Permutation_map hash_bool H).
  - unfold hash_bvec3. rewrite !E3. apply fold_lxor_perm, (Permutation_map hash_bool H).
  - unfold hash_bvec4. rewrite !E. apply fold_lxor_perm, (Permutation_map hash_bool H).
  - unfold hash_mat2. rewrite !E2. apply fold_lxor_perm, (Permutation_map hash_vec2 H).
  - unfold hash_mat3. rewrite !E3. apply fold_lxor_perm, (Permutation_map hash_vec3 H).
Qed.

(** C15: equal components cancel: hash(ivec2(a,a)), hash(bvec2(b,b)) and the hash of a mat2 with
    equal columns are 0. *)
Lemma C15_equal_components_cancel_pf : forall (a : Z) (b : bool) (c : vec2 Z),
  hash_ivec2 (V2 a a) = 0 /\ hash_bvec2 (V2 b b) = 0 /\ hash_mat2 (M2 c c) = 0.
Proof. intros; repeat split; apply Z.lxor_nilpotent. Qed.

(*PROPS
Example C15_perm_ex : hash_ivec3 (V3 1 2 3) = hash_ivec3 (V3 3 1 2) /\ hash_ivec2 (V2 5 5) = hash_ivec2 (V2 7 7).
Proof. split; vm_compute; reflexivity. Qed.
PROPS*)
