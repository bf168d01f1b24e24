(** * The number systems the library is evaluated in

    All floating-point code of zcm is modelled once, over the record [Scalar]
    of the operations the C++ code applies to [float].  [IEEE32.v] instantiates
    it with binary32, [RealInst.v] with the real numbers, [ErrExpr.v] with
    syntax trees. *)
From Coq Require Import ZArith.

Record Scalar : Type := mkScalar {
  car :> Type;
  (** literal [m * 10^e], e.g. [0.5f] is [slit 5 (-1)] *)
  slit : Z -> Z -> car;
  (** conversion of an [int] *)
  sofZ : Z -> car;
  (** the built-in operators *)
  sadd : car -> car -> car;
  ssub : car -> car -> car;
  smul : car -> car -> car;
  sdiv : car -> car -> car;
  sneg : car -> car;
  slt : car -> car -> bool;
  sle : car -> car -> bool;
  seq : car -> car -> bool;
  (** functions of <cmath> with an exactly specified result *)
  sabs : car -> car;
  ssqrt : car -> car;
  sfma : car -> car -> car -> car;
  sfloor : car -> car;
  sceil : car -> car;
  strunc : car -> car;
  sround : car -> car;
  snearbyint : car -> car;
  sisnan : car -> bool;
  sisinf : car -> bool;
  (** functions of <cmath> whose accuracy is implementation defined *)
  mcos : car -> car;
  msin : car -> car;
  mtan : car -> car;
  macos : car -> car;
  masin : car -> car;
  matan : car -> car;
  matan2 : car -> car -> car;
  mcosh : car -> car;
  msinh : car -> car;
  mtanh : car -> car;
  macosh : car -> car;
  masinh : car -> car;
  matanh : car -> car;
  mpow : car -> car -> car;
  mexp : car -> car;
  mlog : car -> car;
  mlog2 : car -> car;
  mcbrt : car -> car
}.

Arguments slit {s} _ _.
Arguments sofZ {s} _.
Arguments sadd {s} _ _.
Arguments ssub {s} _ _.
Arguments smul {s} _ _.
Arguments sdiv {s} _ _.
Arguments sneg {s} _.
Arguments slt {s} _ _.
Arguments sle {s} _ _.
Arguments seq {s} _ _.
Arguments sabs {s} _.
Arguments ssqrt {s} _.
Arguments sfma {s} _ _ _.
Arguments sfloor {s} _.
Arguments sceil {s} _.
Arguments strunc {s} _.
Arguments sround {s} _.
Arguments snearbyint {s} _.
Arguments sisnan {s} _.
Arguments sisinf {s} _.
Arguments mcos {s} _.
Arguments msin {s} _.
Arguments mtan {s} _.
Arguments macos {s} _.
Arguments masin {s} _.
Arguments matan {s} _.
Arguments matan2 {s} _ _.
Arguments mcosh {s} _.
Arguments msinh {s} _.
Arguments mtanh {s} _.
Arguments macosh {s} _.
Arguments masinh {s} _.
Arguments matanh {s} _.
Arguments mpow {s} _ _.
Arguments mexp {s} _.
Arguments mlog {s} _.
Arguments mlog2 {s} _.
Arguments mcbrt {s} _.

Declare Scope scalar_scope.
Delimit Scope scalar_scope with s.
Bind Scope scalar_scope with car.
Infix "+" := sadd : scalar_scope.
Infix "-" := ssub : scalar_scope.
Infix "*" := smul : scalar_scope.
Infix "/" := sdiv : scalar_scope.
Notation "- x" := (sneg x) : scalar_scope.
Infix "<?" := slt : scalar_scope.
Infix "<=?" := sle : scalar_scope.
Infix "=?" := seq : scalar_scope.

(** Comparisons [>] and [>=] of C++ are the mirrored [<] and [<=] (IEEE 754). *)
Definition sgt {S : Scalar} (x y : S) : bool := slt y x.
Definition sge {S : Scalar} (x y : S) : bool := sle y x.
Infix ">?" := sgt : scalar_scope.
Infix ">=?" := sge : scalar_scope.

(** Float literals that occur often. *)
Notation "'f0'" := (slit 0%Z 0%Z) : scalar_scope.
Notation "'f1'" := (slit 1%Z 0%Z) : scalar_scope.
Notation "'f2'" := (slit 2%Z 0%Z) : scalar_scope.
Notation "'f3'" := (slit 3%Z 0%Z) : scalar_scope.
Notation "'f0_5'" := (slit 5%Z (-1)%Z) : scalar_scope.
Notation "'f0_25'" := (slit 25%Z (-2)%Z) : scalar_scope.
