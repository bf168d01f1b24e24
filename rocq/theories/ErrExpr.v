(** * Syntax trees: the third instance of [Scalar]

    A model function applied to [ES] computes the expression it evaluates.  Only integer
    literals and conversions, 0.5 and the operators + - * and negation occur in the functions this
    instance is used for; every other operation gives the literal 0, so that a function using
    it does not evaluate back to itself and nothing can be concluded about it. *)
From Coq Require Import ZArith Bool Reals List.
From Flocq Require Import Core IEEE754.BinarySingleNaN.
From Verif Require Import Scalar IEEE32 RealInst.
Import ListNotations.

Inductive expr : Type :=
  | EVar (n : nat)
  | ELit (m : Z)
  | EInt (m : Z)
  | EHalf
  | EAdd (a b : expr)
  | ESub (a b : expr)
  | EMul (a b : expr)
  | ENeg (a : expr).

Definition ES : Scalar :=
  let bad1 := fun _ : expr => ELit 0 in let bad2 := fun _ _ : expr => ELit 0 in
  let no2 := fun _ _ : expr => false in let no1 := fun _ : expr => false in
  {| car := expr;
     slit := fun m e => match e with Z0 => ELit m | Zneg 1 => match m with 5%Z => EHalf | _ => ELit 0 end | _ => ELit 0 end;
     sofZ := EInt;
     sadd := EAdd; ssub := ESub; smul := EMul; sdiv := bad2; sneg := ENeg;
     slt := no2; sle := no2; seq := no2;
     sabs := bad1; ssqrt := bad1; sfma := fun _ _ _ => ELit 0;
     sfloor := bad1; sceil := bad1; strunc := bad1; sround := bad1; snearbyint := bad1;
     sisnan := no1; sisinf := no1;
     mcos := bad1; msin := bad1; mtan := bad1; macos := bad1; masin := bad1; matan := bad1; matan2 := bad2;
     mcosh := bad1; msinh := bad1; mtanh := bad1; macosh := bad1; masinh := bad1; matanh := bad1;
     mpow := bad2; mexp := bad1; mlog := bad1; mlog2 := bad1; mcbrt := bad1 |}.

(** value in any number system *)
Fixpoint eval (S : Scalar) (rho : nat -> S) (e : expr) : S :=
  match e with
  | EVar n => rho n
  | ELit m => slit m 0%Z
  | EInt m => sofZ m
  | EHalf => slit 5%Z (-1)%Z
  | EAdd a b => sadd (eval S rho a) (eval S rho b)
  | ESub a b => ssub (eval S rho a) (eval S rho b)
  | EMul a b => smul (eval S rho a) (eval S rho b)
  | ENeg a => sneg (eval S rho a)
  end.

(** integer literals that binary32 represents exactly *)
Fixpoint lits_ok (e : expr) : bool :=
  match e with
  | EVar _ | EHalf => true
  | ELit m | EInt m => (Z.abs m <=? 2 ^ 24)%Z
  | EAdd a b | ESub a b | EMul a b => lits_ok a && lits_ok b
  | ENeg a => lits_ok a
  end.
(** roundings along the worst path *)
Fixpoint roundings (e : expr) : nat :=
  match e with
  | EVar _ | ELit _ | EInt _ | EHalf => 0
  | EAdd a b | ESub a b => S (Nat.max (roundings a) (roundings b))
  | EMul a b => S (roundings a + roundings b)
  | ENeg a => roundings a
  end.
(** the value with every variable, literal and minus sign replaced by its absolute value *)
Fixpoint magnitude (r : nat -> R) (e : expr) : R :=
  match e with
  | EVar n => Rabs (r n)
  | ELit m | EInt m => Rabs (IZR m)
  | EHalf => / 2
  | EAdd a b | ESub a b => magnitude r a + magnitude r b
  | EMul a b => magnitude r a * magnitude r b
  | ENeg a => magnitude r a
  end.
(** sum of the coefficients of the expanded [magnitude] (0.5 counted as 1), and its degree *)
Fixpoint coeffs (e : expr) : Z :=
  match e with
  | EVar _ | EHalf => 1
  | ELit m | EInt m => Z.abs m
  | EAdd a b | ESub a b => coeffs a + coeffs b
  | EMul a b => coeffs a * coeffs b
  | ENeg a => coeffs a
  end.
Fixpoint degree (e : expr) : nat :=
  match e with
  | EVar _ => 1
  | ELit _ | EInt _ | EHalf => 0
  | EAdd a b | ESub a b => Nat.max (degree a) (degree b)
  | EMul a b => degree a + degree b
  | ENeg a => degree a
  end.
(** weight and degree of the underflow contribution *)
Fixpoint uweight (e : expr) : Z :=
  match e with
  | EVar _ | ELit _ | EInt _ | EHalf => 0
  | EAdd a b | ESub a b => uweight a + uweight b
  | EMul a b => coeffs a * uweight b + coeffs b * uweight a + uweight a * uweight b + 1
  | ENeg a => uweight a
  end.
Fixpoint udegree (e : expr) : nat :=
  match e with
  | EVar _ | ELit _ | EInt _ | EHalf => 0
  | EAdd a b | ESub a b => Nat.max (udegree a) (udegree b)
  | EMul a b => Nat.max (if (uweight b =? 0)%Z then 0 else degree a + udegree b)
                        (if (uweight a =? 0)%Z then 0 else degree b + udegree a)
  | ENeg a => udegree a
  end.
(** sum of the coefficients with every literal counted as at least 1 *)
Fixpoint esize (e : expr) : Z :=
  match e with
  | EVar _ | EHalf => 1
  | ELit m | EInt m => Z.max 1 (Z.abs m)
  | EAdd a b | ESub a b => esize a + esize b
  | EMul a b => esize a * esize b
  | ENeg a => esize a
  end.
