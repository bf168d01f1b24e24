(** * Specification vocabulary: rounding error bounds

    [ulp_half] is half the distance from 1 to the next binary32 number, [tiny] is the smallest
    positive binary32 number. *)
From Coq Require Import ZArith Reals List.
From Flocq Require Import Core IEEE754.BinarySingleNaN.
From Verif Require Import IEEE32 FloatBasics Spec SpecF32 SpecR SpecMat SpecGeo.
Import ListNotations.
Local Open Scope R_scope.

Definition ulp_half : R := / IZR (2 ^ 24).
Definition tiny : R := / IZR (2 ^ 149).
(** the usual bound on the accumulated relative error of [k] roundings *)
Definition gam (k : nat) : R := INR k * ulp_half / (1 - INR k * ulp_half).

(** exact values and absolute values of the components *)
Definition vals (l : list f32) : list R := map (fun x => b2r x) l.
Definition mags (l : list f32) : list R := map (fun x => Rabs (b2r x)) l.

(** [computed] differs from [exact] by at most [k] roundings relative to [mag], plus an
    absolute term for underflow *)
Definition near (k : nat) (under : R) (computed : f32) (exact mag : R) : Prop :=
  Rabs (b2r computed - exact) <= gam k * mag + under.
Fixpoint nears (k : nat) (under : R) (computed : list f32) (exact mag : list R) : Prop :=
  match computed, exact, mag with
  | [], [], [] => True
  | c :: cs, x :: xs, m :: ms => near k under c x m /\ nears k under cs xs ms
  | _, _, _ => False
  end.
(** the sum over all permutations without signs *)
Definition permanent (n : nat) (m : list R) : R :=
  fold_right Rplus 0 (map (fun s => fold_right Rmult 1 (map (fun i => ent n m i (nth i s O)) (seq 0 n)))
    (permutations (seq 0 n))).
(** the cross product with its minus signs replaced by plus signs *)
Definition cross_mag (u v : list R) : list R :=
  let c i j := nth i u 0 * nth j v 0 + nth j u 0 * nth i v 0 in [c 1 2; c 2 0; c 0 1]%nat.
Definition total (l : list R) : R := fold_right Rplus 0 l.
Definition product (l : list R) : R := fold_right Rmult 1 l.
(** the matrix without row [i] and column [j]; the cofactor matrix transposed *)
Definition skip (i k : nat) : nat := if Nat.ltb k i then k else S k.
Definition minor (n : nat) (m : list R) (i j : nat) : list R :=
  build_mat (n - 1) (fun r c => ent n m (skip i r) (skip j c)).
Definition cofactors_t (n : nat) (m : list R) : list R :=
  build_mat n (fun i j => (if Nat.even (i + j) then 1 else -1) * leibniz (n - 1) (minor n m j i)).
Definition cofactors_t_mag (n : nat) (m : list R) : list R :=
  build_mat n (fun i j => permanent (n - 1) (minor n m j i)).
(** every component at most [M] in absolute value *)
Definition bounded_by (M : R) (l : list f32) : Prop := Forall (fun x => Rabs (b2r x) <= M) l.

(** ** Error laws *)
Definition dot_error_ok {V} (n : nat) (comps : V -> list f32) (dot : V -> V -> f32) : Prop :=
  forall a b, finite (dot a b) ->
    near n (INR n * tiny) (dot a b) (total (map (fun p => fst p * snd p) (combine (vals (comps a)) (vals (comps b)))))
      (total (map (fun p => fst p * snd p) (combine (mags (comps a)) (mags (comps b))))).
Definition square_error_ok {V} (n : nat) (comps : V -> list f32) (len2 : V -> f32) : Prop :=
  forall a, finite (len2 a) ->
    let exact := total (map (fun x => x * x) (vals (comps a))) in
    Rabs (b2r (len2 a) - exact) <= gam n * exact + INR n * tiny.
(** product of matrices, matrix times vector ([kv] roundings), vector times matrix *)
Definition matrix_error_ok {M V} (n kv : nat) (comps : M -> list f32) (vcomps : V -> list f32)
    (mul : M -> M -> M) (mulv : M -> V -> V) (vmul : V -> M -> V) : Prop :=
  (forall a b, all_finite (comps (mul a b)) ->
     nears n (INR n * tiny) (comps (mul a b)) (mprod n (vals (comps a)) (vals (comps b))) (mprod n (mags (comps a)) (mags (comps b)))) /\
  (forall a v, all_finite (vcomps (mulv a v)) ->
     nears kv (INR n * tiny) (vcomps (mulv a v)) (mapply n (vals (comps a)) (vals (vcomps v))) (mapply n (mags (comps a)) (mags (vcomps v)))) /\
  (forall a v, all_finite (vcomps (vmul v a)) ->
     nears n (INR n * tiny) (vcomps (vmul v a)) (mapply_l n (vals (vcomps v)) (vals (comps a))) (mapply_l n (mags (vcomps v)) (mags (comps a)))).
(** determinant: [k] roundings relative to the permanent of the absolute values *)
Definition determinant_error_ok {M} (n k : nat) (w : R) (d : nat) (comps : M -> list f32) (det : M -> f32) : Prop :=
  forall a B, finite (det a) -> 1 <= B -> bounded_by B (comps a) ->
    near k (w * B ^ d * tiny) (det a) (leibniz n (vals (comps a))) (permanent n (mags (comps a))).
Definition adjugate_error_ok {M} (n k : nat) (w : R) (d : nat) (comps : M -> list f32) (adj : M -> M) : Prop :=
  forall a B, all_finite (comps (adj a)) -> 1 <= B -> bounded_by B (comps a) ->
    nears k (w * B ^ d * tiny) (comps (adj a)) (cofactors_t n (vals (comps a))) (cofactors_t_mag n (mags (comps a))).
Definition reflect_error_ok {V} (k : nat) (w : R) (comps : V -> list f32) (refl : V -> V -> V) : Prop :=
  forall i n B, all_finite (comps (refl i n)) -> 1 <= B -> bounded_by B (comps i) -> bounded_by B (comps n) ->
    let dotp u v := total (map (fun p => fst p * snd p) (combine u v)) in
    nears k (w * B * tiny) (comps (refl i n))
      (map (fun p => fst p - 2 * dotp (vals (comps n)) (vals (comps i)) * snd p) (combine (vals (comps i)) (vals (comps n))))
      (map (fun p => fst p + 2 * dotp (mags (comps n)) (mags (comps i)) * snd p) (combine (mags (comps i)) (mags (comps n)))).
Definition sum_error_ok {V} (k : nat) (comps : V -> list f32) (sum : V -> f32) : Prop :=
  forall v, finite (sum v) -> Rabs (b2r (sum v) - total (vals (comps v))) <= gam k * total (mags (comps v)).
Definition product_error_ok {V} (k : nat) (w : R) (d : nat) (comps : V -> list f32) (prod : V -> f32) : Prop :=
  forall v B, finite (prod v) -> 1 <= B -> bounded_by B (comps v) ->
    near k (w * B ^ d * tiny) (prod v) (product (vals (comps v))) (product (mags (comps v))).

(** ** Quaternions as vectors x, y, z and scalar w *)
(** v + 2w (u x v) + 2 u x (u x v), the rotation of v by (u, w), and the same with plus signs only *)
Definition turned (x y z w : R) (v : list R) : list R :=
  let u := [x; y; z] in let t := cross_l u v in let s := cross_l u t in
  map (fun i => nth i v 0 + 2 * w * nth i t 0 + 2 * nth i s 0) [0; 1; 2]%nat.
Definition turned_mag (x y z w : R) (v : list R) : list R :=
  let u := [x; y; z] in let t := cross_mag u v in let s := cross_mag u t in
  map (fun i => nth i v 0 + 2 * w * nth i t 0 + 2 * nth i s 0) [0; 1; 2]%nat.
(** the columns of the matrix of that rotation; [s] is -1, or 1 for the absolute values *)
Definition rotation_entries (s x y z w : R) : list R :=
  [ 1 + s * (2 * (y * y + z * z)); 2 * (x * y + w * z); 2 * (x * z + s * (w * y));
    2 * (x * y + s * (w * z)); 1 + s * (2 * (x * x + z * z)); 2 * (y * z + w * x);
    2 * (x * z + w * y); 2 * (y * z + s * (w * x)); 1 + s * (2 * (x * x + y * y)) ].

(** ** Absence of overflow *)
(** when all inputs are finite, at most [M] in absolute value, and c M^d is below 2^127, all outputs are finite *)
Definition no_overflow (c : R) (d : nat) (inputs outputs : list f32) : Prop :=
  forall M, 1 <= M -> all_finite inputs -> bounded_by M inputs -> c * M ^ d < IZR (2 ^ 127) -> all_finite outputs.

(** ** Lengths and normalization *)
Definition length_error_ok {V} (n : nat) (comps : V -> list f32) (len : V -> f32) : Prop :=
  forall v, all_finite (comps v) -> let N := norm (vals (comps v)) in N <= IZR (2 ^ 62) ->
    finite (len v) /\ Rabs (b2r (len v) - N) <= (INR n + 3) / 2 * ulp_half * N + / IZR (2 ^ 73).
Definition distance_error_ok {V} (n : nat) (comps : V -> list f32) (dist : V -> V -> f32) : Prop :=
  forall u v, all_finite (comps u) -> all_finite (comps v) ->
    let N := norm (zip Rminus (vals (comps u)) (vals (comps v))) in N <= IZR (2 ^ 61) ->
    finite (dist u v) /\ Rabs (b2r (dist u v) - N) <= (INR n + 5) / 2 * ulp_half * N + / IZR (2 ^ 73).
Definition normalize_error_ok {V} (n : nat) (comps : V -> list f32) (nrm : V -> V) : Prop :=
  forall v, all_finite (comps v) -> let N := norm (vals (comps v)) in / IZR (2 ^ 48) <= N <= IZR (2 ^ 62) ->
    all_finite (comps (nrm v)) /\
    Forall2 (fun c x => Rabs (b2r c - x / N) <= (INR n / 2 + 6) * ulp_half * Rabs (x / N) + tiny) (comps (nrm v)) (vals (comps v)) /\
    Rabs (norm (vals (comps (nrm v))) - 1) <= (INR n / 2 + 7) * ulp_half.
