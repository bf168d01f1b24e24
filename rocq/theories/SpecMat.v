(** * Specification vocabulary: square matrices over the real numbers

    An [n] by [n] matrix is the list of its entries, column after column.  Nothing
    here mentions the model. *)
From Coq Require Import Reals List Arith.
From Verif Require Import Types Spec SpecR.
Import ListNotations.
Local Open Scope R_scope.

(** entry in row [i], column [j] *)
Definition ent (n : nat) (m : list R) (i j : nat) : R := nth (j * n + i) m 0.
(** the matrix with entries [f i j] *)
Definition build_mat (n : nat) (f : nat -> nat -> R) : list R :=
  concat (map (fun j => map (fun i => f i j) (seq 0 n)) (seq 0 n)).
Definition sum_to (n : nat) (f : nat -> R) : R := fold_right Rplus 0 (map f (seq 0 n)).

(** product: entry (i,j) is the sum over k of a(i,k) b(k,j) *)
Definition mprod (n : nat) (a b : list R) : list R :=
  build_mat n (fun i j => sum_to n (fun k => ent n a i k * ent n b k j)).
Definition mident (n : nat) : list R := build_mat n (fun i j => if Nat.eqb i j then 1 else 0).
Definition mtransp (n : nat) (a : list R) : list R := build_mat n (fun i j => ent n a j i).
(** matrix times column vector, row vector times matrix *)
Definition mapply (n : nat) (a v : list R) : list R :=
  map (fun i => sum_to n (fun k => ent n a i k * nth k v 0)) (seq 0 n).
Definition mapply_l (n : nat) (v a : list R) : list R :=
  map (fun j => sum_to n (fun k => nth k v 0 * ent n a k j)) (seq 0 n).

(** ** Determinant: Leibniz' sum over all permutations *)
Fixpoint insert_all (a : nat) (l : list nat) : list (list nat) :=
  match l with
  | [] => [[a]]
  | b :: t => (a :: l) :: map (cons b) (insert_all a t)
  end.
Fixpoint permutations (l : list nat) : list (list nat) :=
  match l with
  | [] => [[]]
  | a :: t => concat (map (insert_all a) (permutations t))
  end.
(** number of pairs in the wrong order *)
Fixpoint inversions (l : list nat) : nat :=
  match l with
  | [] => 0
  | a :: t => List.length (filter (fun b => Nat.ltb b a) t) + inversions t
  end.
Definition signature (l : list nat) : R := if Nat.even (inversions l) then 1 else -1.
Definition leibniz (n : nat) (m : list R) : R :=
  fold_right Rplus 0 (map (fun s => signature s * fold_right Rmult 1 (map (fun i => ent n m i (nth i s O)) (seq 0 n)))
    (permutations (seq 0 n))).

(** ** Laws *)
(** [mul], [add], [one] form the ring of [n] by [n] matrices, acting on vectors. *)
Definition matrix_ring_ok {M V} (n : nat) (comps : M -> list R) (vcomps : V -> list R) (add sub mul : M -> M -> M) (neg : M -> M)
    (zero one : M) (mulv : M -> V -> V) (vmul : V -> M -> V) : Prop :=
  (forall a b, comps (add a b) = zip Rplus (comps a) (comps b)) /\
  (forall a b, comps (sub a b) = zip Rminus (comps a) (comps b)) /\
  (forall a, comps (neg a) = map Ropp (comps a)) /\
  (forall a b, comps (mul a b) = mprod n (comps a) (comps b)) /\
  comps one = mident n /\ zeros (comps zero) /\
  (forall a v, vcomps (mulv a v) = mapply n (comps a) (vcomps v)) /\
  (forall a v, vcomps (vmul v a) = mapply_l n (vcomps v) (comps a)) /\
  (forall a b c, mul (mul a b) c = mul a (mul b c)) /\
  (forall a b c, mul a (add b c) = add (mul a b) (mul a c)) /\
  (forall a b c, mul (add a b) c = add (mul a c) (mul b c)) /\
  (forall a, mul a one = a) /\ (forall a, mul one a = a) /\
  (forall a, mul a zero = zero) /\ (forall a, mul zero a = zero) /\
  (forall a, add a (neg a) = zero) /\
  (forall a b v, mulv (mul a b) v = mulv a (mulv b v)) /\
  (forall a b v, vmul v (mul a b) = vmul (vmul v a) b) /\
  (forall v, mulv one v = v) /\ (forall v, vmul v one = v).

(** [s * m], [m * s] and [m / s] scale every entry. *)
Definition matrix_scalar_ok {M} (n : nat) (comps : M -> list R) (mul : M -> M -> M)
    (scale scale_l div : M -> R -> M) : Prop :=
  (forall a s, comps (scale a s) = map (Rmult s) (comps a)) /\
  (forall a s, comps (scale_l a s) = map (Rmult s) (comps a)) /\
  (forall a s, comps (div a s) = map (fun x => x / s) (comps a)) /\
  (forall a b s, mul (scale a s) b = scale (mul a b) s) /\
  (forall a b s, mul a (scale b s) = scale (mul a b) s).

Definition transpose_ok {M V} (n : nat) (comps : M -> list R) (mul : M -> M -> M) (mulv : M -> V -> V) (vmul : V -> M -> V)
    (tr : M -> M) : Prop :=
  (forall a, comps (tr a) = mtransp n (comps a)) /\
  (forall a b, tr (mul a b) = mul (tr b) (tr a)) /\
  (forall a v, vmul v a = mulv (tr a) v).

(** Replacing column [j] of a column-major matrix. *)
Definition with_column (n : nat) (a : list R) (j : nat) (c : list R) : list R :=
  build_mat n (fun i k => if Nat.eqb k j then nth i c 0 else ent n a i k).
Definition column (n : nat) (a : list R) (j : nat) : list R := map (fun i => ent n a i j) (seq 0 n).

Definition determinant_ok {M} (n : nat) (comps : M -> list R) (mul : M -> M -> M) (tr : M -> M) (one : M) (scale : M -> R -> M)
    (det : M -> R) : Prop :=
  (forall a, det a = leibniz n (comps a)) /\
  (forall a b, det (mul a b) = det a * det b) /\
  (forall a, det (tr a) = det a) /\
  det one = 1 /\
  (forall a s, det (scale a s) = s ^ n * det a) /\
  (forall a i j, (i < j < n)%nat -> column n (comps a) i = column n (comps a) j -> det a = 0) /\
  (forall a b i j, (i < j < n)%nat ->
     comps b = with_column n (with_column n (comps a) i (column n (comps a) j)) j (column n (comps a) i) -> det b = - det a) /\
  (forall a b c j s, (j < n)%nat ->
     comps c = with_column n (comps a) j (zip Rplus (column n (comps a) j) (map (Rmult s) (column n (comps b) j))) ->
     forall b', comps b' = with_column n (comps a) j (column n (comps b) j) -> det c = det a + s * det b').

(** [inv] is the two-sided inverse of every matrix with nonzero determinant. *)
Definition inverse_ok {M} (n : nat) (comps : M -> list R) (mul : M -> M -> M) (tr : M -> M) (one : M) (inv : M -> M) : Prop :=
  let invertible a := leibniz n (comps a) <> 0 in
  (forall a, invertible a -> mul a (inv a) = one /\ mul (inv a) a = one) /\
  (forall a, invertible a -> invertible (inv a) /\ inv (inv a) = a) /\
  (forall a b, invertible a -> invertible b -> inv (mul a b) = mul (inv b) (inv a)) /\
  (forall a, invertible a -> inv (tr a) = tr (inv a)) /\
  (forall a b, mul a b = one -> invertible a /\ inv a = b) /\
  inv one = one.

Definition adjugate_ok {M} (n : nat) (comps : M -> list R) (mul : M -> M -> M) (one : M) (scale : M -> R -> M) (adj : M -> M) : Prop :=
  forall a, mul (adj a) a = scale one (leibniz n (comps a)) /\ mul a (adj a) = scale one (leibniz n (comps a)).

(** Division by an invertible matrix undoes multiplication. *)
Definition matrix_division_ok {M V} (n : nat) (comps : M -> list R) (mul : M -> M -> M) (mulv : M -> V -> V) (vmul : V -> M -> V)
    (div : M -> M -> M) (divv : M -> V -> V) (vdiv : V -> M -> V) : Prop :=
  forall b, leibniz n (comps b) <> 0 ->
    (forall a, mul (div a b) b = a /\ div (mul a b) b = a) /\
    (forall v, mulv b (divv b v) = v /\ divv b (mulv b v) = v) /\
    (forall v, vmul (vdiv v b) b = v /\ vdiv (vmul v b) b = v).
