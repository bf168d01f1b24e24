(** * Specification vocabulary over the real numbers

    Vectors of any dimension are lists of reals; nothing here mentions the model. *)
From Coq Require Import Reals List.
From Verif Require Import Types Spec.
Import ListNotations.
Local Open Scope R_scope.

(** inner product and Euclidean norm of component lists *)
Definition ip (u v : list R) : R := fold_right Rplus 0 (zip Rmult u v).
Definition norm (u : list R) : R := sqrt (ip u u).
Definition zeros (u : list R) : Prop := Forall (fun x => x = 0) u.

(** [dot] is the inner product of the components, and obeys its laws with respect
    to the library's own [add] and [scale]. *)
Definition inner_product_ok {V} (comps : V -> list R) (add : V -> V -> V) (scale : V -> R -> V)
    (dot : V -> V -> R) : Prop :=
  (forall u v, dot u v = ip (comps u) (comps v)) /\
  (forall u v, dot u v = dot v u) /\
  (forall u v w, dot (add u v) w = dot u w + dot v w) /\
  (forall a u v, dot (scale u a) v = a * dot u v) /\
  (forall u, 0 <= dot u u) /\
  (forall u, dot u u = 0 <-> zeros (comps u)) /\
  (forall u v, dot u v * dot u v <= dot u u * dot v v).

(** [len] is the Euclidean norm and obeys its laws. *)
Definition norm_ok {V} (comps : V -> list R) (add : V -> V -> V) (scale : V -> R -> V)
    (len : V -> R) : Prop :=
  (forall u, len u = norm (comps u)) /\
  (forall u, 0 <= len u) /\
  (forall u, len u = 0 <-> zeros (comps u)) /\
  (forall a u, len (scale u a) = Rabs a * len u) /\
  (forall u v, len (add u v) <= len u + len v).

(** [dist] is the Euclidean distance, and a metric. *)
Definition metric_ok {V} (comps : V -> list R) (dist : V -> V -> R) : Prop :=
  (forall u v, dist u v = norm (zip Rminus (comps u) (comps v))) /\
  (forall u v, dist u v = 0 <-> u = v) /\
  (forall u v, dist u v = dist v u) /\
  (forall u v w, dist u w <= dist u v + dist v w).

(** [nrm] scales every nonzero vector to length one, keeping its direction. *)
Definition normalize_ok {V} (comps : V -> list R) (scale : V -> R -> V) (nrm : V -> V) : Prop :=
  forall v, ~ zeros (comps v) ->
    norm (comps (nrm v)) = 1 /\
    (exists k, 0 < k /\ nrm v = scale v k) /\
    nrm (nrm v) = nrm v /\
    (forall a, 0 < a -> nrm (scale v a) = nrm v).

(** The mirror image of [i] in the hyperplane with unit normal [n]. *)
Definition reflection_ok {V} (comps : V -> list R) (refl : V -> V -> V) : Prop :=
  forall i n, norm (comps n) = 1 ->
    refl (refl i n) n = i /\
    norm (comps (refl i n)) = norm (comps i) /\
    ip (comps (refl i n)) (comps n) = - ip (comps i) (comps n) /\
    (ip (comps i) (comps n) = 0 -> refl i n = i) /\
    (forall a, comps i = map (Rmult a) (comps n) -> comps (refl i n) = map (Rmult (- a)) (comps n)).

(** The part of [u] orthogonal to the unit vector [n]. *)
Definition tangential (u n : list R) : list R := zip Rminus u (map (Rmult (ip u n)) n).

(** Snell's law for unit incident [i] and unit normal [n] against it. *)
Definition refraction_ok {V} (comps : V -> list R) (refr : V -> V -> R -> V) : Prop :=
  forall i n eta, norm (comps i) = 1 -> norm (comps n) = 1 -> ip (comps n) (comps i) <= 0 ->
    let t := comps (refr i n eta) in
    let total := eta * eta * (1 - ip (comps n) (comps i) * ip (comps n) (comps i)) > 1 in
    (zeros t <-> total) /\
    (~ total ->
       norm t = 1 /\
       ip t (comps n) <= 0 /\
       tangential t (comps n) = map (Rmult eta) (tangential (comps i) (comps n))) /\
    refr i n 1 = i.
