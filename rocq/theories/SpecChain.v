(** * Specification vocabulary: chains of operations of any length *)
From Coq Require Import ZArith Reals List.
From Verif Require Import IEEE32 FloatBasics Types Spec SpecR SpecF32 SpecMat SpecGeo SpecErr.
Import ListNotations.
Local Open Scope R_scope.

(** the matrix [m] stretches no vector by more than [c] *)
Definition stretch_le (n : nat) (m : list R) (c : R) : Prop := forall x, length x = n -> norm (mapply n m x) <= c * norm x.
(** the matrices [a] and [b] differ by at most [e] on vectors of length 1 *)
Definition within (n : nat) (a b : list R) (e : R) : Prop :=
  forall x, length x = n -> norm (zip Rminus (mapply n a x) (mapply n b x)) <= e * norm x.
(** [k] steps with a relative error of [eta] half-ulps each *)
Definition growth (eta : R) (k : nat) : R := (1 + eta * ulp_half) ^ k.

(** m := m0; for a in ms: m := m * a *)
Definition product_chain_ok {M} (n : nat) (eta : R) (comps : M -> list f32) (mul : M -> M -> M) : Prop :=
  forall (ms : list M) (cs : list R) (m0 : M) (c0 : R),
  Forall2 (fun m c => all_finite (comps m) /\ 1 <= c /\ stretch_le n (vals (comps m)) c) (m0 :: ms) (c0 :: cs) ->
  let k := length ms in let P := fold_left Rmult cs c0 in growth eta k * P <= IZR (2 ^ 60) ->
  let r := fold_left mul ms m0 in
  all_finite (comps r) /\
  within n (vals (comps r)) (fold_left (mprod n) (map (fun m => vals (comps m)) ms) (vals (comps m0))) ((growth eta k - 1) * P).
(** v := v0; for a in ms: v := a * v *)
Definition transform_chain_ok {M V} (n : nat) (eta : R) (comps : M -> list f32) (vcomps : V -> list f32) (mulv : M -> V -> V) : Prop :=
  forall (ms : list M) (cs : list R) (v0 : V) (c0 : R),
  all_finite (vcomps v0) -> 1 <= c0 -> norm (vals (vcomps v0)) <= c0 ->
  Forall2 (fun m c => all_finite (comps m) /\ 1 <= c /\ stretch_le n (vals (comps m)) c) ms cs ->
  let k := length ms in let P := fold_left Rmult cs c0 in growth eta k * P <= IZR (2 ^ 60) ->
  let r := fold_left (fun v m => mulv m v) ms v0 in
  all_finite (vcomps r) /\
  norm (zip Rminus (vals (vcomps r)) (fold_left (fun v m => mapply n (vals (comps m)) v) ms (vals (vcomps v0)))) <= (growth eta k - 1) * P.
(** v := v0; for a in vs: v := v + a *)
Definition sum_chain_ok {V} (comps : V -> list f32) (add : V -> V -> V) : Prop :=
  forall (vs : list V) (v0 : V), let r := fold_left add vs v0 in all_finite (comps r) ->
  forall i, Rabs (nth i (vals (comps r)) 0 - total (map (fun v => nth i (vals (comps v)) 0) (v0 :: vs))) <=
    (growth 1 (length vs) - 1) * total (map (fun v => Rabs (nth i (vals (comps v)) 0)) (v0 :: vs)).
(** the exact quaternion *)
Definition rquat (q : quat f32) : quat R := Quat (b2r (qx q)) (b2r (qy q)) (b2r (qz q)) (b2r (qw q)).
(** q := q0; for a in qs: q := q * a *)
Definition quat_chain_ok (eta : R) (mul : quat f32 -> quat f32 -> quat f32) : Prop :=
  forall (qs : list (quat f32)) (cs : list R) (q0 : quat f32) (c0 : R),
  Forall2 (fun q c => all_finite (lq q) /\ 1 <= c /\ norm (vals (lq q)) <= c) (q0 :: qs) (c0 :: cs) ->
  let k := length qs in let P := fold_left Rmult cs c0 in growth eta k * P <= IZR (2 ^ 60) ->
  let r := fold_left mul qs q0 in
  all_finite (lq r) /\
  norm (zip Rminus (vals (lq r)) (lq (fold_left ham (map rquat qs) (rquat q0)))) <= (growth eta k - 1) * P.
(** products of quaternions of length within [d] half-ulps of 1 stay close to length 1 *)
Definition quat_drift_ok (d b : R) (mul : quat f32 -> quat f32 -> quat f32) : Prop :=
  forall (qs : list (quat f32)) (q0 : quat f32),
  Forall (fun q => all_finite (lq q) /\ Rabs (norm (vals (lq q)) - 1) <= d * ulp_half) (q0 :: qs) ->
  INR (length (q0 :: qs)) <= IZR (10 ^ 4) ->
  let r := fold_left mul qs q0 in all_finite (lq r) /\ Rabs (norm (vals (lq r)) - 1) <= b * INR (length (q0 :: qs)) * ulp_half.
