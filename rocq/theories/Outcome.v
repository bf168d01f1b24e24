(** * Outcomes of a C++ evaluation

    [Ret v]: the call returns [v].  [AssertFail]: a [assert(...)] fires (only in
    a build without NDEBUG).  [Undefined]: the C++ standard gives the call no
    meaning (signed overflow, division by zero, out-of-range shift or index). *)
From Coq Require Import Bool List.

Inductive build : Type := Debug | Release.

Inductive outcome (A : Type) : Type :=
| Ret (a : A)
| AssertFail
| Undefined.
Arguments Ret {A} a.
Arguments AssertFail {A}.
Arguments Undefined {A}.

Definition bind {A B : Type} (m : outcome A) (k : A -> outcome B) : outcome B :=
  match m with
  | Ret a => k a
  | AssertFail => AssertFail
  | Undefined => Undefined
  end.

Declare Scope outcome_scope.
Delimit Scope outcome_scope with outcome.
Notation "'do' x <- m ; k" := (bind m (fun x => k))
  (at level 200, x name, m at level 100, k at level 200) : outcome_scope.

(** [assert(c)]: checked in a debug build, compiled out under NDEBUG. *)
Definition cassert (b : build) (c : bool) : outcome unit :=
  match b with
  | Debug => if c then Ret tt else AssertFail
  | Release => Ret tt
  end.

Definition is_ret {A : Type} (m : outcome A) : bool :=
  match m with Ret _ => true | _ => false end.

(** Reading element [i] through a pointer: [None] is the null pointer, [Some l]
    a pointer to the [length l] readable elements [l].  Reading through null or
    past the end is undefined. *)
Definition deref {A : Type} (ptr : option (list A)) (i : nat) : outcome A :=
  match ptr with
  | None => Undefined
  | Some l => match List.nth_error l i with Some a => Ret a | None => Undefined end
  end.

(** [assert(ptr)]. *)
Definition assert_ptr {A : Type} (b : build) (ptr : option (list A)) : outcome unit :=
  cassert b (match ptr with None => false | Some _ => true end).
